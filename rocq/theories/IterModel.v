(** The iterators of the crate as state machines: every call of [next] returns an
    item or [None], and the next state, also when the item is [None].

    The other models give the list of what an iterator yields, or its successive
    items up to the first [None]; P_Iter.v shows that the machines below return
    the same items, and nothing more.  Iterators of the standard library over
    sets and vectors are lists ([list_next]); they are fused, as is
    documented ([FusedIterator]). *)
From Coq Require Import List Bool Arith.
Import ListNotations.
From Verif Require Import Base TripleModel TriplePatternModel QuadPatternModel TermModel SlabModel
  IResourceModel IndexedDatasetModel IndexedGraphModel PatternMapModel TraitModel.
Open Scope panic_scope.

(** std: [iter.next().map(f)]. *)
Definition map_next {I X Y} (f : X -> Y) (next : I -> option X * I) (i : I) : option Y * I :=
  let (x, j) := next i in (option_map f x, j).
(** std: [a.next().or_else(|| b.next())]. *)
Definition or_else_next {I J X} (na : I -> option X * I) (nb : J -> option X * J) (s : I * J)
  : option X * (I * J) :=
  let (i, j) := s in
  let (x, i) := na i in
  match x with
  | Some x => (Some x, (i, j))
  | None => let (y, j) := nb j in (y, (i, j))
  end.

(** ** Terms of a resource *)
Section Terms.
  (** The iterators of a reverse interpretation. *)
  Context {I J K : Type}.
  Context (iris : I -> option cow * I) (literals : J -> option literal_cow * J)
          (blank_ids : K -> option cow * K).

  (** interpretation/mod.rs 103-112 [TermsOf::next]. *)
  Definition terms_of_next : I * J -> option term_cow * (I * J) :=
    or_else_next (map_next CIri iris) (map_next CLit literals).
  (** interpretation/mod.rs 170-179 [LocalTermsOf::next]. *)
  Definition local_terms_of_next : (I * J) * K -> option local_cow * ((I * J) * K) :=
    or_else_next (map_next CNamed terms_of_next) (map_next CAnonymous blank_ids).
End Terms.

(** ** Values of a triple pattern map (pattern/triple/map.rs) *)
Section Values.
  Context {V T : Type} (teqb : T -> T -> bool).

  (** [same_as_x: Option<...>] of the [get] functions. *)
  Definition when {A} (b : bool) (a : A) : option A := if b then Some a else None.

  (** 160-164 (struct [GivenSubjectAnyPredicateValues]), 166-175 its [next],
      131-141 [get]. *)
  Definition mga_iter : Type := list V * option (list V) * option (list V).
  Definition mga_next : mga_iter -> option V * mga_iter :=
    or_else_next (or_else_next list_next (option_next list_next)) (option_next list_next).
  Definition mga_values (m : m_ga V T) (t : triple T) : mga_iter :=
    (mga_any m, when (teqb (t_p t) (t_o t)) (mga_samep m), hm_get teqb (t_o t) (mga_given m)).
  (** 218-221, 223-231, 196-201. *)
  Definition mgg_iter : Type := list V * option (list V).
  Definition mgg_next : mgg_iter -> option V * mgg_iter :=
    or_else_next list_next (option_next list_next).
  Definition mgg_values (m : m_gg V T) (t : triple T) : mgg_iter :=
    (mgg_any m, hm_get teqb (t_o t) (mgg_given m)).
  (** 359-364, 366-376, 323-338. *)
  Definition maa_iter : Type := list V * option (list V) * option (list V) * option (list V).
  Definition maa_next : maa_iter -> option V * maa_iter :=
    or_else_next
      (or_else_next (or_else_next list_next (option_next list_next)) (option_next list_next))
      (option_next list_next).
  Definition maa_values (m : m_aa V T) (t : triple T) : maa_iter :=
    (maa_any m, when (teqb (t_s t) (t_o t)) (maa_sames m),
     when (teqb (t_p t) (t_o t)) (maa_samep m), hm_get teqb (t_o t) (maa_given m)).
  (** 428-432, 434-443, 399-409. *)
  Definition mag_iter : Type := list V * option (list V) * option (list V).
  Definition mag_next : mag_iter -> option V * mag_iter :=
    or_else_next (or_else_next list_next (option_next list_next)) (option_next list_next).
  Definition mag_values (m : m_ag V T) (t : triple T) : mag_iter :=
    (mag_any m, when (teqb (t_s t) (t_o t)) (mag_sames m), hm_get teqb (t_o t) (mag_given m)).
  (** 95-98, 100-108, 73-78. *)
  Definition mgs_iter : Type := mga_iter * option mgg_iter.
  Definition mgs_next : mgs_iter -> option V * mgs_iter := or_else_next mga_next (option_next mgg_next).
  Definition mgs_values (m : m_gs V T) (t : triple T) : mgs_iter :=
    (mga_values (mgs_any m) t,
     option_map (fun a => mgg_values a t) (hm_get teqb (t_p t) (mgs_given m))).
  (** 283-287, 289-298, 254-264. *)
  Definition mas_iter : Type := maa_iter * option mag_iter * option mag_iter.
  Definition mas_next : mas_iter -> option V * mas_iter :=
    or_else_next (or_else_next maa_next (option_next mag_next)) (option_next mag_next).
  Definition mas_values (m : m_as V T) (t : triple T) : mas_iter :=
    (maa_values (mas_any m) t, when (teqb (t_s t) (t_p t)) (mag_values (mas_sames m) t),
     option_map (fun a => mag_values a t) (hm_get teqb (t_p t) (mas_given m))).
  (** 39-42, 44-52, 31-36. *)
  Definition tpm_iter : Type := mas_iter * option mgs_iter.
  Definition tpm_next : tpm_iter -> option V * tpm_iter := or_else_next mas_next (option_next mgs_next).
  Definition tpm_values (m : tpm V T) (t : triple T) : tpm_iter :=
    (mas_values (tpm_any m) t,
     option_map (fun a => mgs_values a t) (hm_get teqb (t_s t) (tpm_given m))).
End Values.

(** ** Pattern matching on indexed containers *)
Section Matching.
  Context {R : Type} (cmp : R -> R -> comparison).

  (** dataset/impl/indexed_btree_dataset.rs 817-837, 854-874, 890-912, up to the
      quad found.  The fields that a return leaves unchanged ([?] operator) are
      unchanged; the outer [None] means that [fuel] ran out. *)
  Fixpoint pm_poll (fuel cap : nat) (qs : slab (quad nat)) (m : pm)
    : option (option (nat * quad nat) * pm) :=
    match fuel with
    | 0 => None
    | S fuel =>
        if pm_i m <? cap then
          let '(r, cs) := s_next (pm_s m) (pm_i m) in
          match r with
          | None => Some (None, PM cs (pm_p m) (pm_o m) (pm_g m) (pm_i m))
          | Some i =>
              match sget qs i with
              | None => Some (None, PM cs (pm_p m) (pm_o m) (pm_g m) (pm_i m))
              | Some q =>
                  let '(n, cp) := c_next (pm_p m) i q in
                  match n with
                  | NErr None => Some (None, PM cs cp (pm_o m) (pm_g m) (pm_i m))
                  | NErr (Some j) => pm_poll fuel cap qs (PM cs cp (pm_o m) (pm_g m) j)
                  | NOk =>
                      let '(n, co) := c_next (pm_o m) i q in
                      match n with
                      | NErr None => Some (None, PM cs cp co (pm_g m) (pm_i m))
                      | NErr (Some j) => pm_poll fuel cap qs (PM cs cp co (pm_g m) j)
                      | NOk =>
                          let '(n, cg) := c_next (pm_g m) i q in
                          match n with
                          | NErr None => Some (None, PM cs cp co cg (pm_i m))
                          | NErr (Some j) => pm_poll fuel cap qs (PM cs cp co cg j)
                          | NOk => Some (Some (i, q), PM cs cp co cg (S i))
                          end
                      end
                  end
              end
          end
        else Some (None, m)
    end.
  (** 817-837 [PatternMatching::next], 854-874 [MultiPatternMatching::next]. *)
  Definition pm_call (cap : nat) (d : @idataset R) (m : pm) : option (option (quad R) * pm) :=
    '(r, m) <- pm_poll (S cap) cap (id_quads d) m ;;
    match r with
    | None => Some (None, m)
    | Some (_, q) => x <- i_quad_with_resources (id_resources d) q ;; Some (Some x, m)
    end.
  (** 890-912 [ExtractPatternMatching::next]: the dataset is part of the state. *)
  Definition extract_call (cap : nat) (s : @idataset R * pm)
    : option (option (quad R) * (idataset * pm)) :=
    let (d, m) := s in
    '(r, m) <- pm_poll (S cap) cap (id_quads d) m ;;
    match r with
    | None => Some (None, (d, m))
    | Some (i, q) =>
        x <- i_quad_with_resources (id_resources d) q ;;
        d <- id_remove_by_index cmp d i true ;;
        Some (Some x, (d, m))
    end.

  (** dataset/graph/impl/indexed_btree_graph.rs 620-637 [PatternMatching::next]. *)
  Fixpoint gm_poll (fuel cap : nat) (ts : slab (triple nat)) (m : gm)
    : option (option (nat * triple nat) * gm) :=
    match fuel with
    | 0 => None
    | S fuel =>
        if gm_i m <? cap then
          let '(r, cs) := s_next (gm_s m) (gm_i m) in
          match r with
          | None => Some (None, GM cs (gm_p m) (gm_o m) (gm_i m))
          | Some i =>
              match sget ts i with
              | None => Some (None, GM cs (gm_p m) (gm_o m) (gm_i m))
              | Some t =>
                  let '(n, cp) := c_next (gm_p m) i t in
                  match n with
                  | NErr None => Some (None, GM cs cp (gm_o m) (gm_i m))
                  | NErr (Some j) => gm_poll fuel cap ts (GM cs cp (gm_o m) j)
                  | NOk =>
                      let '(n, co) := c_next (gm_o m) i t in
                      match n with
                      | NErr None => Some (None, GM cs cp co (gm_i m))
                      | NErr (Some j) => gm_poll fuel cap ts (GM cs cp co j)
                      | NOk => Some (Some (i, t), GM cs cp co (S i))
                      end
                  end
              end
          end
        else Some (None, m)
    end.
  Definition gm_call (cap : nat) (g : @igraph R) (m : gm) : option (option (triple R) * gm) :=
    '(r, m) <- gm_poll (S cap) cap (ig_triples g) m ;;
    match r with
    | None => Some (None, m)
    | Some (_, t) => x <- i_triple_with_resources (ig_resources g) t ;; Some (Some x, m)
    end.
End Matching.
