(** [TriplePatternMap] (/repo/src/pattern/triple/map.rs).

    Simplifications: a [HashSet] is a list without duplicates and a [HashMap]
    an association list without duplicate keys; hashing is not modelled, and
    the iteration order, unspecified in Rust, is the order of the list (the
    theorems are up to permutation).  The iterator returned by [get] is the
    list of what it yields: its [next] functions (44-52, 100-108, 166-175,
    223-231, 289-298, 366-376, 434-443) chain the parts in the order below. *)
From Coq Require Import List Bool.
Import ListNotations.
From Verif Require Import Base TripleModel TriplePatternModel.

Section Hash.
  Context {V T : Type} (veqb : V -> V -> bool) (teqb : T -> T -> bool).

  (** std [HashSet::insert], [HashSet::extend]. *)
  Definition hs_insert (v : V) (s : list V) : bool * list V :=
    if existsb (veqb v) s then (false, s) else (true, s ++ [v]).
  Definition hs_extend (s l : list V) : list V :=
    fold_left (fun s v => snd (hs_insert v s)) l s.

  (** std [HashMap::get], [HashMap::insert], [HashMap::extend]. *)
  Fixpoint hm_get {A} (k : T) (h : list (T * A)) : option A :=
    match h with
    | [] => None
    | (x, a) :: r => if teqb k x then Some a else hm_get k r
    end.
  Fixpoint hm_set {A} (k : T) (a : A) (h : list (T * A)) : list (T * A) :=
    match h with
    | [] => [(k, a)]
    | (x, b) :: r => if teqb k x then (x, a) :: r else (x, b) :: hm_set k a r
    end.
  Definition hm_extend {A} (h l : list (T * A)) : list (T * A) :=
    fold_left (fun h ka => hm_set (fst ka) (snd ka) h) l h.

  (** [self.given.entry(id).or_default().insert(rest, value)] as in 24, 66,
      124, 189, 247, 316, 392. *)
  Definition hm_entry {A} (d : A) (k : T) (f : A -> bool * A) (h : list (T * A))
    : bool * list (T * A) :=
    let (b, a) := f (match hm_get k h with Some a => a | None => d end) in (b, hm_set k a h).

  Definition hm_values {A} (k : T) (f : A -> list V) (h : list (T * A)) : list V :=
    match hm_get k h with Some a => f a | None => [] end.

  (** map.rs 112-116 (struct [GivenSubjectAnyPredicateMap]). *)
  Record m_ga := MGA { mga_any : list V; mga_samep : list V; mga_given : list (T * list V) }.
  (** map.rs 179-182 (struct [GivenSubjectGivenPredicateMap]). *)
  Record m_gg := MGG { mgg_any : list V; mgg_given : list (T * list V) }.
  (** map.rs 302-307 (struct [AnySubjectAnyPredicateMap]). *)
  Record m_aa := MAA { maa_any : list V; maa_sames : list V; maa_samep : list V;
                       maa_given : list (T * list V) }.
  (** map.rs 380-384 (struct [AnySubjectGivenPredicateMap]). *)
  Record m_ag := MAG { mag_any : list V; mag_sames : list V; mag_given : list (T * list V) }.
  (** map.rs 56-59 (struct [GivenSubjectMap]). *)
  Record m_gs := MGS { mgs_any : m_ga; mgs_given : list (T * m_gg) }.
  (** map.rs 235-239 (struct [AnySubjectMap]). *)
  Record m_as := MAS { mas_any : m_aa; mas_sames : m_ag; mas_given : list (T * m_ag) }.
  (** map.rs 14-17 (struct [TriplePatternMap]). *)
  Record tpm := TPM { tpm_any : m_as; tpm_given : list (T * m_gs) }.

  (** [Default] (13, 55, 111, 178, 234, 301, 379). *)
  Definition mga_default := MGA [] [] [].
  Definition mgg_default := MGG [] [].
  Definition maa_default := MAA [] [] [] [].
  Definition mag_default := MAG [] [] [].
  Definition mgs_default := MGS mga_default [].
  Definition mas_default := MAS maa_default mag_default [].
  Definition tpm_default := TPM mas_default [].

  (** map.rs 119-127 [insert]. *)
  Definition mga_insert (c : t_ga T) (v : V) (m : m_ga) : bool * m_ga :=
    let (any, same, given) := m in
    match c with
    | TGA_Any => let (b, s) := hs_insert v any in (b, MGA s same given)
    | TGA_SameP => let (b, s) := hs_insert v same in (b, MGA any s given)
    | TGA_Given k => let (b, h) := hm_entry [] k (hs_insert v) given in (b, MGA any same h)
    end.
  (** map.rs 185-192 [insert]. *)
  Definition mgg_insert (c : t_gg T) (v : V) (m : m_gg) : bool * m_gg :=
    let (any, given) := m in
    match c with
    | TGG_Any => let (b, s) := hs_insert v any in (b, MGG s given)
    | TGG_Given k => let (b, h) := hm_entry [] k (hs_insert v) given in (b, MGG any h)
    end.
  (** map.rs 310-319 [insert]. *)
  Definition maa_insert (c : t_aa T) (v : V) (m : m_aa) : bool * m_aa :=
    let (any, sames, samep, given) := m in
    match c with
    | TAA_Any => let (b, s) := hs_insert v any in (b, MAA s sames samep given)
    | TAA_SameS => let (b, s) := hs_insert v sames in (b, MAA any s samep given)
    | TAA_SameP => let (b, s) := hs_insert v samep in (b, MAA any sames s given)
    | TAA_Given k => let (b, h) := hm_entry [] k (hs_insert v) given in (b, MAA any sames samep h)
    end.
  (** map.rs 387-395 [insert]. *)
  Definition mag_insert (c : t_ag T) (v : V) (m : m_ag) : bool * m_ag :=
    let (any, sames, given) := m in
    match c with
    | TAG_Any => let (b, s) := hs_insert v any in (b, MAG s sames given)
    | TAG_SameS => let (b, s) := hs_insert v sames in (b, MAG any s given)
    | TAG_Given k => let (b, h) := hm_entry [] k (hs_insert v) given in (b, MAG any sames h)
    end.
  (** map.rs 62-69 [insert]. *)
  Definition mgs_insert (c : t_gs T) (v : V) (m : m_gs) : bool * m_gs :=
    let (any, given) := m in
    match c with
    | TG_AnyP r => let (b, a) := mga_insert r v any in (b, MGS a given)
    | TG_GivenP k r => let (b, h) := hm_entry mgg_default k (mgg_insert r v) given in (b, MGS any h)
    end.
  (** map.rs 242-250 [insert]. *)
  Definition mas_insert (c : t_as T) (v : V) (m : m_as) : bool * m_as :=
    let (any, sames, given) := m in
    match c with
    | TA_AnyP r => let (b, a) := maa_insert r v any in (b, MAS a sames given)
    | TA_SameS r => let (b, a) := mag_insert r v sames in (b, MAS any a given)
    | TA_GivenP k r =>
        let (b, h) := hm_entry mag_default k (mag_insert r v) given in (b, MAS any sames h)
    end.
  (** map.rs 20-27 [insert]. *)
  Definition tpm_insert (c : ctp T) (v : V) (m : tpm) : bool * tpm :=
    let (any, given) := m in
    match c with
    | CT_AnyS r => let (b, a) := mas_insert r v any in (b, TPM a given)
    | CT_GivenS k r => let (b, h) := hm_entry mgs_default k (mgs_insert r v) given in (b, TPM any h)
    end.

  (** map.rs 131-141 [get]. *)
  Definition mga_get (m : m_ga) (t : triple T) : list V :=
    mga_any m ++ (if teqb (t_p t) (t_o t) then mga_samep m else []) ++
    hm_values (t_o t) (fun s => s) (mga_given m).
  (** map.rs 196-201 [get]. *)
  Definition mgg_get (m : m_gg) (t : triple T) : list V :=
    mgg_any m ++ hm_values (t_o t) (fun s => s) (mgg_given m).
  (** map.rs 323-338 [get]. *)
  Definition maa_get (m : m_aa) (t : triple T) : list V :=
    maa_any m ++ (if teqb (t_s t) (t_o t) then maa_sames m else []) ++
    (if teqb (t_p t) (t_o t) then maa_samep m else []) ++
    hm_values (t_o t) (fun s => s) (maa_given m).
  (** map.rs 399-409 [get]. *)
  Definition mag_get (m : m_ag) (t : triple T) : list V :=
    mag_any m ++ (if teqb (t_s t) (t_o t) then mag_sames m else []) ++
    hm_values (t_o t) (fun s => s) (mag_given m).
  (** map.rs 73-78 [get]. *)
  Definition mgs_get (m : m_gs) (t : triple T) : list V :=
    mga_get (mgs_any m) t ++ hm_values (t_p t) (fun a => mgg_get a t) (mgs_given m).
  (** map.rs 254-264 [get]. *)
  Definition mas_get (m : m_as) (t : triple T) : list V :=
    maa_get (mas_any m) t ++
    (if teqb (t_s t) (t_p t) then mag_get (mas_sames m) t else []) ++
    hm_values (t_p t) (fun a => mag_get a t) (mas_given m).
  (** map.rs 31-36 [get]. *)
  Definition tpm_get (m : tpm) (t : triple T) : list V :=
    mas_get (tpm_any m) t ++ hm_values (t_s t) (fun a => mgs_get a t) (tpm_given m).

  (** map.rs 153-157, 212-215, 351-356, 421-425 [union_with]. *)
  Definition mga_union (m n : m_ga) : m_ga :=
    MGA (hs_extend (mga_any m) (mga_any n)) (hs_extend (mga_samep m) (mga_samep n))
        (hm_extend (mga_given m) (mga_given n)).
  Definition mgg_union (m n : m_gg) : m_gg :=
    MGG (hs_extend (mgg_any m) (mgg_any n)) (hm_extend (mgg_given m) (mgg_given n)).
  Definition maa_union (m n : m_aa) : m_aa :=
    MAA (hs_extend (maa_any m) (maa_any n)) (hs_extend (maa_sames m) (maa_sames n))
        (hs_extend (maa_samep m) (maa_samep n)) (hm_extend (maa_given m) (maa_given n)).
  Definition mag_union (m n : m_ag) : m_ag :=
    MAG (hs_extend (mag_any m) (mag_any n)) (hs_extend (mag_sames m) (mag_sames n))
        (hm_extend (mag_given m) (mag_given n)).
  (** map.rs 82-85, 276-280 [union_with]. *)
  Definition mgs_union (m n : m_gs) : m_gs :=
    MGS (mga_union (mgs_any m) (mgs_any n)) (hm_extend (mgs_given m) (mgs_given n)).
  Definition mas_union (m n : m_as) : m_as :=
    MAS (maa_union (mas_any m) (mas_any n)) (mag_union (mas_sames m) (mas_sames n))
        (hm_extend (mas_given m) (mas_given n)).

End Hash.

Arguments m_ga : clear implicits. Arguments m_gg : clear implicits.
Arguments m_aa : clear implicits. Arguments m_ag : clear implicits.
Arguments m_gs : clear implicits. Arguments m_as : clear implicits.
Arguments tpm : clear implicits.

(** Inserting a sequence of pairs; the results of the insertions and the map. *)
Fixpoint insert_all {P V M} (insert : P -> V -> M -> bool * M) (l : list (P * V)) (m : M)
  : list bool * M :=
  match l with
  | [] => ([], m)
  | (c, v) :: r =>
      let (b, m1) := insert c v m in
      let (bs, m2) := insert_all insert r m1 in (b :: bs, m2)
  end.
