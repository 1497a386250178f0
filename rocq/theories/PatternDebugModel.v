(** [Debug] of [TriplePatternMap] and of the maps inside of it (/repo/src/pattern/triple/map.rs), on
    the builders of DebugModel.v.

    Simplification: the tables are iterated in the order of the list.  In which order Rust
    iterates a hash table is not specified, so what [Debug] shows of a map [m] is what
    is defined here of any [m'] with [tpm_order m m']. *)
From Coq Require Import List NArith Bool Ascii String Permutation.
Import ListNotations.
From Verif Require Import Base TextModel DisplayModel WriteModel TriplePatternModel PatternMapModel DebugModel.
Local Open Scope N_scope.

(** [DebugMap::entry] (core/src/fmt/builders.rs), that is [key] then [value], which use the same
    [PadAdapterState]; [first] is [!self.has_fields]. *)
Definition d_map_entry (first : bool) (e : dval * dval) : dval := fun W wr alt =>
  if alt
  then w_try (if first then w_str wr [10] else w_ok)
         (padded (w_try (fst e _ (pad_write wr) alt) (w_try (w_str (pad_write wr) (chars ": "))
            (w_try (snd e _ (pad_write wr) alt) (w_str (pad_write wr) (chars "," ++ [10]))))))
  else w_try (if first then w_ok else w_str wr (chars ", "))
         (w_try (fst e W wr alt) (w_try (w_str wr (chars ": ")) (snd e W wr alt))).
(** [DebugMap::entries], [DebugMap::finish]. *)
Fixpoint d_map_entries (first : bool) (es : list (dval * dval)) : dval := fun W wr alt =>
  match es with
  | [] => w_str wr (chars "}")
  | e :: es => w_try (d_map_entry first e W wr alt) (d_map_entries false es W wr alt)
  end.
(** [f.debug_map().entries(l).finish()] *)
Definition d_map (es : list (dval * dval)) : dval := fun W wr alt =>
  w_try (w_str wr (chars "{")) (d_map_entries true es W wr alt).

Section Maps.
  Context {V T : Type} (dv : V -> dval) (dk : T -> dval).

  (** std [impl Debug for HashSet]: [f.debug_set().entries(self.iter()).finish()]. *)
  Definition d_hs (s : list V) : dval := d_set (map dv s).
  (** std [impl Debug for HashMap]: [f.debug_map().entries(self.iter()).finish()]. *)
  Definition d_hm {A} (da : A -> dval) (h : list (T * A)) : dval :=
    d_map (map (fun e => (dk (fst e), da (snd e))) h).

  (** map.rs 110-116, derived. *)
  Definition d_mga (m : m_ga V T) : dval := d_struct (chars "GivenSubjectAnyPredicateMap")
    [(chars "any", d_hs (mga_any m)); (chars "same_as_predicate", d_hs (mga_samep m));
     (chars "given", d_hm d_hs (mga_given m))].
  (** map.rs 177-182, derived. *)
  Definition d_mgg (m : m_gg V T) : dval := d_struct (chars "GivenSubjectGivenPredicateMap")
    [(chars "any", d_hs (mgg_any m)); (chars "given", d_hm d_hs (mgg_given m))].
  (** map.rs 300-307, derived. *)
  Definition d_maa (m : m_aa V T) : dval := d_struct (chars "AnySubjectAnyPredicateMap")
    [(chars "any", d_hs (maa_any m)); (chars "same_as_subject", d_hs (maa_sames m));
     (chars "same_as_predicate", d_hs (maa_samep m)); (chars "given", d_hm d_hs (maa_given m))].
  (** map.rs 378-384, derived. *)
  Definition d_mag (m : m_ag V T) : dval := d_struct (chars "AnySubjectGivenPredicateMap")
    [(chars "any", d_hs (mag_any m)); (chars "same_as_subject", d_hs (mag_sames m));
     (chars "given", d_hm d_hs (mag_given m))].
  (** map.rs 54-59, derived. *)
  Definition d_mgs (m : m_gs V T) : dval := d_struct (chars "GivenSubjectMap")
    [(chars "any", d_mga (mgs_any m)); (chars "given", d_hm d_mgg (mgs_given m))].
  (** map.rs 233-239, derived. *)
  Definition d_mas (m : m_as V T) : dval := d_struct (chars "AnySubjectMap")
    [(chars "any", d_maa (mas_any m)); (chars "same_as_subject", d_mag (mas_sames m));
     (chars "given", d_hm d_mag (mas_given m))].
  (** map.rs 12-17, derived. *)
  Definition d_tpm (m : tpm V T) : dval := d_struct (chars "TriplePatternMap")
    [(chars "any", d_mas (tpm_any m)); (chars "given", d_hm d_mgs (tpm_given m))].
End Maps.

(** The same tables, in another order of iteration. *)
Section Orders.
  Context {V T : Type}.
  (** std [HashMap::iter]: any order, and the values in theirs. *)
  Definition hm_order {A} (o : A -> A -> Prop) (h h' : list (T * A)) : Prop :=
    exists h1, Permutation h h1 /\
      Forall2 (fun e e' => fst e = fst e' /\ o (snd e) (snd e')) h1 h'.
  (** std [HashSet::iter]: any order. *)
  Definition hs_order (s s' : list V) : Prop := Permutation s s'.
  (** The fields of map.rs 112-116, 179-182, 302-307, 380-384, 56-59, 235-239, 14-17. *)
  Definition mga_order (m m' : m_ga V T) : Prop :=
    hs_order (mga_any m) (mga_any m') /\ hs_order (mga_samep m) (mga_samep m') /\
    hm_order hs_order (mga_given m) (mga_given m').
  Definition mgg_order (m m' : m_gg V T) : Prop :=
    hs_order (mgg_any m) (mgg_any m') /\ hm_order hs_order (mgg_given m) (mgg_given m').
  Definition maa_order (m m' : m_aa V T) : Prop :=
    hs_order (maa_any m) (maa_any m') /\ hs_order (maa_sames m) (maa_sames m') /\
    hs_order (maa_samep m) (maa_samep m') /\ hm_order hs_order (maa_given m) (maa_given m').
  Definition mag_order (m m' : m_ag V T) : Prop :=
    hs_order (mag_any m) (mag_any m') /\ hs_order (mag_sames m) (mag_sames m') /\
    hm_order hs_order (mag_given m) (mag_given m').
  Definition mgs_order (m m' : m_gs V T) : Prop :=
    mga_order (mgs_any m) (mgs_any m') /\ hm_order mgg_order (mgs_given m) (mgs_given m').
  Definition mas_order (m m' : m_as V T) : Prop :=
    maa_order (mas_any m) (mas_any m') /\ mag_order (mas_sames m) (mas_sames m') /\
    hm_order mag_order (mas_given m) (mas_given m').
  Definition tpm_order (m m' : tpm V T) : Prop :=
    mas_order (tpm_any m) (tpm_any m') /\ hm_order mgs_order (tpm_given m) (tpm_given m').
End Orders.
