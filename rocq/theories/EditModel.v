(** Editing a dataset by way of a published copy without blank nodes, as a client of
    the crate writes it with the programs of [SkolemModel] and [PatchModel]:

    [[
    fn edit(d: &BTreeDataset<LocalTerm>, g: &mut generator::Uuid, removed: &[Quad<LocalTerm>],
            added: &[Quad<LocalTerm>]) -> (usize, BTreeDataset<LocalTerm>) {
        let (mut copy, names) = skolemise(d, g);
        let publish = |t: LocalTerm| match t {
            LocalTerm::Anonymous(b) => match names.get(&b) {
                Some(i) => LocalTerm::Named(i.clone()),
                None => LocalTerm::Anonymous(b),
            },
            t => t,
        };
        let removed: Vec<_> = removed.iter().map(|q| q.clone().map(publish)).collect();
        let added: Vec<_> = added.iter().map(|q| q.clone().map(publish)).collect();
        let n = patch(&mut copy, &removed, &added);
        (n, restore(&copy, &names))
    }
    ]]

    Simplifications: those of the two models. *)
From Coq Require Import List NArith.
Import ListNotations.
From Verif Require Import Base TextModel DisplayModel TermModel TripleModel UuidModel BTreeDatasetModel
  SkolemModel PatchModel.

(** The closure given to /repo/src/quad.rs 232-234 [Quad::map]. *)
Definition publish (names : list (text * term)) (t : local_term) : local_term :=
  match t with
  | Anonymous b => match iri_of b names with Some i => Named i | None => Anonymous b end
  | Named n => Named n
  end.

Section Edit.
  Context (md5 sha1 : bytes -> bytes) (g : uuid_generator) (random : nat -> bytes).
  Context (cmp : local_term -> local_term -> comparison) (keep : bool) (iri_eqb tag_eqb : text -> text -> bool).

  (** The program; /repo/src/dataset/impl/btree_dataset.rs 139-214 [insert], 220-266
      [remove]. *)
  Definition edit (d : @bdataset local_term) (removed added : list (quad local_term))
    : option (nat * @bdataset local_term) :=
    match skolemise md5 sha1 g random cmp keep d with
    | Some (copy, names) =>
        match patch (bd_insert cmp keep) (bd_remove cmp) copy
                (map (quad_map (publish names)) removed) (map (quad_map (publish names)) added) with
        | Some (n, copy) =>
            match restore cmp keep iri_eqb tag_eqb copy names with
            | Some d => Some (n, d)
            | None => None
            end
        | None => None
        end
    | None => None
    end.
End Edit.
