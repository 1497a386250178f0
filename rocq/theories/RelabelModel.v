(** A program that gives new names to the blank nodes of a dataset with a
    generator, as a client of the crate writes it:

    [[
    fn relabel(d: &BTreeDataset<LocalTerm>, g: &mut generator::Blank) -> BTreeDataset<LocalTerm> {
        let mut names: HashMap<BlankIdBuf, BlankIdBuf> = HashMap::new();
        let mut out = BTreeDataset::new();
        for q in d.iter() {
            out.insert(q.cloned().map(|t| match t {
                LocalTerm::Anonymous(b) => LocalTerm::Anonymous(
                    names.entry(b).or_insert_with(|| g.next_blank_id()).clone()),
                t => t,
            }));
        }
        out
    }
    ]]

    The functions of the crate that it calls are those of the other models.

    Simplification: the map of names is a list of pairs, oldest first; the
    generator and the map are the state of the closure, [None] once the
    generator has panicked. *)
From Coq Require Import List NArith.
Import ListNotations.
From Verif Require Import Base TextModel DisplayModel TermModel TripleModel BlankIdModel MapCallModel
  BTreeDatasetModel.

Section Relabel.
  (** [usize::MAX] and whether overflows are checked; see [BlankIdModel]. *)
  Context (max : N) (checked : bool).

  (** std [HashMap::get]. *)
  Fixpoint name_of (b : text) (names : list (text * text)) : option text :=
    match names with
    | [] => None
    | (k, v) :: names => if str_eqb k b then Some v else name_of b names
    end.

  (** The closure given to /repo/src/quad.rs 232-234 [Quad::map]; it calls
      /repo/src/term/generator/blank.rs 61-65 [next_blank_id]. *)
  Definition relabel_term (t : local_term) (st : option (generator * list (text * text)))
    : local_term * option (generator * list (text * text)) :=
    match t, st with
    | Anonymous b, Some (g, names) =>
        match name_of b names with
        | Some c => (Anonymous c, st)
        | None =>
            match next_blank_id max checked g with
            | Some (c, g) => (Anonymous c, Some (g, names ++ [(b, c)]))
            | None => (t, None)
            end
        end
    | _, _ => (t, st)
    end.

  Context (cmp : local_term -> local_term -> comparison) (keep : bool).

  (** The loop over the quads; /repo/src/dataset/impl/btree_dataset.rs 139-214
      [BTreeDataset::insert]. *)
  Fixpoint relabel_into (l : list (quad local_term)) (g : generator) (names : list (text * text))
    (out : @bdataset local_term) : option (@bdataset local_term * generator * list (text * text)) :=
    match l with
    | [] => Some (out, g, names)
    | q :: l =>
        match quad_mapm relabel_term q (Some (g, names)) with
        | (q, Some (g, names)) =>
            match bd_insert cmp keep out q with
            | Some (_, out) => relabel_into l g names out
            | None => None
            end
        | (_, None) => None
        end
    end.

  (** The program; /repo/src/dataset/impl/btree_dataset.rs 86-92 [BTreeDataset::iter],
      71-73 [new]. *)
  Definition relabel (d : @bdataset local_term) (g : generator)
    : option (@bdataset local_term * generator * list (text * text)) :=
    match bd_iter d with
    | Some l => relabel_into l g [] bd_new
    | None => None
    end.
End Relabel.
