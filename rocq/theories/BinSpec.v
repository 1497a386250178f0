(** What compact formats hold (C69): which items stand for a value. *)
From Coq Require Import List NArith.
Import ListNotations.
From Verif Require Import TextModel DisplayModel TripleModel TriplePatternModel BinModel.

Definition layout (A : Type) := list item -> A -> Prop.

(** A reader finds the items of a value at the beginning of its input, leaves the
    rest, and accepts nothing else. *)
Definition decodes {A} (read : reader A) (lay : layout A) : Prop :=
  forall i x r, read i = Some (x, r) <-> exists b, i = b ++ r /\ lay b x.

(** A text of some kind. *)
Definition text_of (ok : text -> Prop) : layout text := fun b s => b = [IText s] /\ ok s.

Section Literals.
  Context (iri_ok tag_ok : text -> Prop).
  Inductive type_items : layout ltype :=
  | any_items i : iri_ok i -> type_items [IVariant 0; IText i] (LAny i)
  | lang_items l : tag_ok l -> type_items [IVariant 1; IText l] (LLang l).
  Inductive literal_items : layout literal :=
  | value_items s b t : type_items b t -> literal_items (IText s :: b) (Literal s t).
  (** Nothing says which kind of term follows. *)
  Inductive term_items : layout term :=
  | iri_items i : iri_ok i -> term_items [IText i] (TIri i)
  | lit_items b l : literal_items b l -> term_items b (TLit l).
  Inductive local_items (blank_ok : text -> Prop) : layout local_term :=
  | blank_items b : blank_ok b -> local_items blank_ok [IText b] (Anonymous b)
  | named_items b t : term_items b t -> local_items blank_ok b (Named t).
End Literals.

Inductive triple_items {S P O} (ls : layout S) (lp : layout P) (lo : layout O) : layout (gtriple S P O) :=
| three_items a b c s p o : ls a s -> lp b p -> lo c o ->
    triple_items ls lp lo (a ++ b ++ c) (Triple s p o).
Inductive quad_items {S P O G} (ls : layout S) (lp : layout P) (lo : layout O) (lg : layout G)
  : layout (gquad S P O G) :=
| default_items a b c s p o : ls a s -> lp b p -> lo c o ->
    quad_items ls lp lo lg (a ++ b ++ c ++ [IOption false]) (Quad s p o None)
| four_items a b c d s p o g : ls a s -> lp b p -> lo c o -> lg d g ->
    quad_items ls lp lo lg (a ++ b ++ c ++ IOption true :: d) (Quad s p o (Some g)).
Inductive rv_items {T X} (lt : layout T) (lx : layout X) : layout (res_or_var T X) :=
| res_items b t : lt b t -> rv_items lt lx (IVariant 0 :: b) (Res t)
| var_items b x : lx b x -> rv_items lt lx (IVariant 1 :: b) (Var x).

(** A sequence: how many elements, then each. *)
Definition seq_items {T} (lay : layout T) : layout (list T) := fun b ts =>
  exists bs, b = ILen (length ts) :: concat bs /\ Forall2 lay bs ts.
