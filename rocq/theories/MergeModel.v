(** A program that merges two datasets, keeping their blank nodes apart, as a
    client of the crate writes it with the program of [RelabelModel]:

    [[
    fn merge(a: &BTreeDataset<LocalTerm>, b: &BTreeDataset<LocalTerm>, g: &mut generator::Blank) -> BTreeDataset<LocalTerm> {
        let mut out = relabel(a, g);
        out.extend(relabel(b, g));
        out
    }
    ]]

    The functions of the crate that it calls are those of the other models. *)
From Coq Require Import List NArith.
Import ListNotations.
From Verif Require Import Base TextModel DisplayModel TripleModel BlankIdModel BTreeDatasetModel RelabelModel.

(** [merge]; /repo/src/dataset/impl/btree_dataset.rs 277-283 [extend], and
    [into_iter] as in [BTreeDatasetModel]. *)
Definition merge (max : N) (checked : bool) (cmp : local_term -> local_term -> comparison) (keep : bool)
    (a b : @bdataset local_term) (g : generator) : option (@bdataset local_term * generator) :=
  match relabel max checked cmp keep a g with
  | Some (out, g, _) =>
      match relabel max checked cmp keep b g with
      | Some (b, g, _) =>
          match bd_into_iter b with
          | Some l => option_map (fun out => (out, g)) (bd_extend cmp keep out l)
          | None => None
          end
      | None => None
      end
  | None => None
  end.
