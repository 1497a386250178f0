(** A program that replaces the blank nodes of a dataset by IRIs (skolemisation),
    and one that undoes it, as a client of the crate writes them:

    [[
    fn skolemise(d: &BTreeDataset<LocalTerm>, g: &mut generator::Uuid)
        -> (BTreeDataset<LocalTerm>, HashMap<BlankIdBuf, Term>)
    {
        let mut names = HashMap::new();
        let mut out = BTreeDataset::new();
        for q in d.iter() {
            out.insert(q.cloned().map(|t| match t {
                LocalTerm::Anonymous(b) => LocalTerm::Named(
                    names.entry(b).or_insert_with(|| g.next_term()).clone()),
                t => t,
            }));
        }
        (out, names)
    }

    fn restore(d: &BTreeDataset<LocalTerm>, names: &HashMap<BlankIdBuf, Term>)
        -> BTreeDataset<LocalTerm>
    {
        let mut out = BTreeDataset::new();
        for q in d.iter() {
            out.insert(q.cloned().map(|t| match t {
                LocalTerm::Named(n) => match names.iter().find(|(_, m)| **m == n) {
                    Some((b, _)) => LocalTerm::Anonymous(b.clone()),
                    None => LocalTerm::Named(n),
                },
                t => t,
            }));
        }
        out
    }
    ]]

    The functions of the crate that they call are those of the other models.

    Simplification: the map of names is a list of pairs, oldest first, which is
    also the order in which [restore] searches it; the map is the state of the
    closure, [None] once the generator has panicked; the random bytes of a call of
    the generator are given by the number of the call. *)
From Coq Require Import List NArith.
Import ListNotations.
From Verif Require Import Base TextModel DisplayModel TermModel TripleModel UuidModel MapCallModel
  BTreeDatasetModel.

Section Skolem.
  (** MD5 and SHA-1, see [UuidModel]; the generator; the random bytes. *)
  Context (md5 sha1 : bytes -> bytes) (g : uuid_generator) (random : nat -> bytes).

  (** std [HashMap::get]. *)
  Fixpoint iri_of (b : text) (names : list (text * term)) : option term :=
    match names with
    | [] => None
    | (k, v) :: names => if str_eqb k b then Some v else iri_of b names
    end.

  (** The closure given to /repo/src/quad.rs 232-234 [Quad::map]; it calls
      /repo/src/term/generator/uuid.rs 82-90 [next]. *)
  Definition skolem_term (t : local_term) (st : option (list (text * term)))
    : local_term * option (list (text * term)) :=
    match t, st with
    | Anonymous b, Some names =>
        match iri_of b names with
        | Some i => (Named i, st)
        | None =>
            match uuid_next_term md5 sha1 g (random (length names)) with
            | Some i => (Named i, Some (names ++ [(b, i)]))
            | None => (t, None)
            end
        end
    | _, _ => (t, st)
    end.

  Context (cmp : local_term -> local_term -> comparison) (keep : bool).

  (** The loop over the quads; /repo/src/dataset/impl/btree_dataset.rs 139-214
      [BTreeDataset::insert]. *)
  Fixpoint skolem_into (l : list (quad local_term)) (names : list (text * term))
    (out : @bdataset local_term) : option (@bdataset local_term * list (text * term)) :=
    match l with
    | [] => Some (out, names)
    | q :: l =>
        match quad_mapm skolem_term q (Some names) with
        | (q, Some names) =>
            match bd_insert cmp keep out q with
            | Some (_, out) => skolem_into l names out
            | None => None
            end
        | (_, None) => None
        end
    end.

  (** The program; /repo/src/dataset/impl/btree_dataset.rs 86-92 [BTreeDataset::iter],
      71-73 [new]. *)
  Definition skolemise (d : @bdataset local_term)
    : option (@bdataset local_term * list (text * term)) :=
    match bd_iter d with
    | Some l => skolem_into l [] bd_new
    | None => None
    end.

  (** ** The way back *)
  Context (iri_eqb tag_eqb : text -> text -> bool).

  (** std [Iterator::find]; /repo/src/term/mod.rs 19, derived equality. *)
  Fixpoint blank_for (n : term) (names : list (text * term)) : option text :=
    match names with
    | [] => None
    | (b, m) :: names => if term_eqb iri_eqb tag_eqb m n then Some b else blank_for n names
    end.

  (** The closure given to /repo/src/quad.rs 232-234 [Quad::map]. *)
  Definition restore_term (names : list (text * term)) (t : local_term) : local_term :=
    match t with
    | Named n => match blank_for n names with Some b => Anonymous b | None => Named n end
    | Anonymous b => Anonymous b
    end.

  (** The loop; /repo/src/dataset/impl/btree_dataset.rs 139-214 [BTreeDataset::insert]. *)
  Fixpoint restore_into (l : list (quad local_term)) (names : list (text * term))
    (out : @bdataset local_term) : option (@bdataset local_term) :=
    match l with
    | [] => Some out
    | q :: l =>
        match bd_insert cmp keep out (quad_map (restore_term names) q) with
        | Some (_, out) => restore_into l names out
        | None => None
        end
    end.

  (** The program; /repo/src/dataset/impl/btree_dataset.rs 86-92 [BTreeDataset::iter],
      71-73 [new]. *)
  Definition restore (d : @bdataset local_term) (names : list (text * term))
    : option (@bdataset local_term) :=
    match bd_iter d with
    | Some l => restore_into l names bd_new
    | None => None
    end.
End Skolem.
