(** The same history, results and container with other resources (C55). *)
From Coq Require Import List.
Import ListNotations.
From Verif Require Import TripleModel TriplePatternModel QuadPatternModel SlabModel SetSpec IndexedSpec
  BResourceModel BTreeDatasetModel BTreeGraphModel IResourceModel IndexedDatasetModel IndexedGraphModel.

Definition op_map {X Y} (f : X -> Y) (o : op X) : op Y :=
  match o with
  | Insert x => Insert (f x)
  | Remove x => Remove (f x)
  | Extend l => Extend (map f l)
  | Contains x => Contains (f x)
  | Len => Len
  | IsEmpty => IsEmpty
  | Iter => Iter
  | IntoIter => IntoIter
  end.
Definition out_map {X Y} (f : X -> Y) (x : out X) : out Y :=
  match x with
  | OUnit => OUnit
  | OBool b => OBool b
  | ONat n => ONat n
  | OList l => OList (map f l)
  end.
Definition iop_map {A B} (f : A -> B) (o : iop A) : iop B :=
  match o with
  | IOp o => IOp (op_map (quad_map f) o)
  | IRemoveGraph g => IRemoveGraph (option_map f g)
  | IExtract c n spare => IExtract (cq_map f c) n spare
  end.
Definition iout_map {A B} (f : A -> B) (x : iout A) : iout B :=
  match x with
  | IOut x => IOut (out_map (quad_map f) x)
  | IGraph ts => IGraph (option_map (map (triple_map f)) ts)
  | IQuads l => IQuads (map (quad_map f) l)
  end.

(** Triple patterns. *)
Definition taa_map {A B} (f : A -> B) (c : t_aa A) : t_aa B :=
  match c with
  | TAA_Any => TAA_Any | TAA_SameS => TAA_SameS | TAA_SameP => TAA_SameP
  | TAA_Given o => TAA_Given (f o)
  end.
Definition tag_map {A B} (f : A -> B) (c : t_ag A) : t_ag B :=
  match c with TAG_Any => TAG_Any | TAG_SameS => TAG_SameS | TAG_Given o => TAG_Given (f o) end.
Definition tga_map {A B} (f : A -> B) (c : t_ga A) : t_ga B :=
  match c with TGA_Any => TGA_Any | TGA_SameP => TGA_SameP | TGA_Given o => TGA_Given (f o) end.
Definition tgg_map {A B} (f : A -> B) (c : t_gg A) : t_gg B :=
  match c with TGG_Any => TGG_Any | TGG_Given o => TGG_Given (f o) end.
Definition ct_map {A B} (f : A -> B) (c : ctp A) : ctp B :=
  match c with
  | CT_AnyS (TA_AnyP o) => CT_AnyS (TA_AnyP (taa_map f o))
  | CT_AnyS (TA_SameS o) => CT_AnyS (TA_SameS (tag_map f o))
  | CT_AnyS (TA_GivenP p o) => CT_AnyS (TA_GivenP (f p) (tag_map f o))
  | CT_GivenS s (TG_AnyP o) => CT_GivenS (f s) (TG_AnyP (tga_map f o))
  | CT_GivenS s (TG_GivenP p o) => CT_GivenS (f s) (TG_GivenP (f p) (tgg_map f o))
  end.

(** Containers: the stored resources are replaced, nothing else changes. *)
Definition slab_map {A B} (f : A -> B) (s : slab A) : slab B :=
  Slab (map (option_map f) (ents s)) (free s).
Definition bres_map {A B} (f : A -> B) (r : bresource A) : bresource B :=
  BRes (f (br_value r)) (br_occ r).
Definition ires_map {A B} (f : A -> B) (r : iresource A) : iresource B :=
  IRes (f (ir_value r)) (ir_s r) (ir_p r) (ir_o r) (ir_g r).
Definition bd_map {A B} (f : A -> B) (d : @bdataset A) : @bdataset B :=
  BDataset (slab_map (bres_map f) (bd_resources d)) (bd_quads d) (bd_ri d) (bd_qi d).
Definition bg_map {A B} (f : A -> B) (g : @bgraph A) : @bgraph B :=
  BGraph (slab_map (bres_map f) (bg_resources g)) (bg_triples g) (bg_ri g) (bg_ti g).
Definition id_map {A B} (f : A -> B) (d : @idataset A) : @idataset B :=
  IDataset (slab_map (ires_map f) (id_resources d)) (id_quads d) (id_ri d) (id_qi d)
    (id_s d) (id_p d) (id_o d) (id_dg d) (id_ng d).
Definition ig_map {A B} (f : A -> B) (g : @igraph A) : @igraph B :=
  IGraphS (slab_map (ires_map f) (ig_resources g)) (ig_triples g) (ig_ri g) (ig_ti g)
    (ig_s g) (ig_p g) (ig_o g).

(** All the resources that an operation puts in a container; all those of what
    it returns. *)
Definition op_puts {X} (P : X -> Prop) (o : op X) : Prop :=
  match o with
  | Insert x => P x
  | Extend l => Forall P l
  | _ => True
  end.
Definition out_all {X} (P : X -> Prop) (x : out X) : Prop :=
  match x with OList l => Forall P l | _ => True end.
Definition quad_all {R} (P : R -> Prop) (q : quad R) : Prop :=
  P (q_s q) /\ P (q_p q) /\ P (q_o q) /\ match q_g q with Some g => P g | None => True end.
Definition triple_all {R} (P : R -> Prop) (t : triple R) : Prop := P (t_s t) /\ P (t_p t) /\ P (t_o t).
Definition iop_puts {R} (P : R -> Prop) (o : iop R) : Prop :=
  match o with IOp o => op_puts (quad_all P) o | _ => True end.
Definition iout_all {R} (P : R -> Prop) (x : iout R) : Prop :=
  match x with
  | IOut x => out_all (quad_all P) x
  | IGraph (Some l) => Forall (triple_all P) l
  | IGraph None => True
  | IQuads l => Forall (quad_all P) l
  end.

(** [d'] is [d] with other resources, as far as can be observed. *)
Section Same.
  Context {A B : Type} (ca : A -> A -> comparison) (cb : B -> B -> comparison) (f : A -> B).
  Definition id_same (d : @idataset A) (d' : @idataset B) : Prop :=
    id_resources_iter d' = option_map (map f) (id_resources_iter d) /\
    id_resource_count d' = id_resource_count d /\
    (forall r, id_contains_resource cb d' (f r) = id_contains_resource ca d r) /\
    id_subjects d' = option_map (map f) (id_subjects d) /\
    id_predicates d' = option_map (map f) (id_predicates d) /\
    id_objects d' = option_map (map f) (id_objects d) /\
    id_named_graphs d' = option_map (map f) (id_named_graphs d) /\
    (forall spare c, id_pattern_matching cb d' spare (cq_map f c) =
                     option_map (map (quad_map f)) (id_pattern_matching ca d spare c)) /\
    (forall spare c, id_multi_pattern_matching cb d' spare (cq_map (map f) c) =
                     option_map (map (quad_map f)) (id_multi_pattern_matching ca d spare c)).
  Definition ig_same (g : @igraph A) (g' : @igraph B) : Prop :=
    ig_iter g' = option_map (map (triple_map f)) (ig_iter g) /\
    ig_into_iter g' = option_map (map (triple_map f)) (ig_into_iter g) /\
    ig_len g' = ig_len g /\
    (forall t, ig_contains cb g' (triple_map f t) = ig_contains ca g t) /\
    ig_resources_iter g' = option_map (map f) (ig_resources_iter g) /\
    ig_resource_count g' = ig_resource_count g /\
    (forall r, ig_contains_resource cb g' (f r) = ig_contains_resource ca g r) /\
    ig_subjects g' = option_map (map f) (ig_subjects g) /\
    ig_predicates g' = option_map (map f) (ig_predicates g) /\
    ig_objects g' = option_map (map f) (ig_objects g) /\
    (forall spare c, ig_pattern_matching cb g' spare (ct_map f c) =
                     option_map (map (triple_map f)) (ig_pattern_matching ca g spare c)).
End Same.
