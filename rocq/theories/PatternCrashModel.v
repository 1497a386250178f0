(** [TriplePatternMap] (/repo/src/pattern/triple/map.rs) when [Hash] or [Eq] of the
    resources or of the values panics: what an interrupted call leaves in the map.

    A hash table is changed only after the key was hashed and compared.  The
    argument [n] is the number of such look-ups that succeed before one panics, and
    [None] stands for the panic.  Simplifications, in addition to those of
    PatternMapModel.v: the keys already in a table do not panic when they are hashed
    again (when the table grows); [get] changes nothing and is not written again. *)
From Coq Require Import List Bool.
Import ListNotations.
From Verif Require Import Base TripleModel TriplePatternModel PatternMapModel.

Section Crash.
  Context {V T : Type} (veqb : V -> V -> bool) (teqb : T -> T -> bool).

  (** std [HashSet::insert]. *)
  Definition hs_insert_at (n : nat) (v : V) (s : list V) : option bool * list V :=
    match n with
    | O => (None, s)
    | S _ => let (b, s) := hs_insert veqb v s in (Some b, s)
    end.

  (** [self.given.entry(id).or_default().insert(rest, value)] as in 24, 66, 124, 189,
      247, 316, 392: [or_default] has filled the entry when [insert] panics. *)
  Definition hm_entry_at {A} (n : nat) (d : A) (k : T) (f : nat -> A -> option bool * A)
      (h : list (T * A)) : option bool * list (T * A) :=
    match n with
    | O => (None, h)
    | S n =>
        let (b, a) := f n (match hm_get teqb k h with Some a => a | None => d end) in
        (b, hm_set teqb k a h)
    end.

  (** map.rs 119-127 [insert]. *)
  Definition mga_insert_at (n : nat) (c : t_ga T) (v : V) (m : m_ga V T) : option bool * m_ga V T :=
    let (any, same, given) := m in
    match c with
    | TGA_Any => let (b, s) := hs_insert_at n v any in (b, MGA s same given)
    | TGA_SameP => let (b, s) := hs_insert_at n v same in (b, MGA any s given)
    | TGA_Given k =>
        let (b, h) := hm_entry_at n [] k (fun n => hs_insert_at n v) given in (b, MGA any same h)
    end.
  (** map.rs 185-192 [insert]. *)
  Definition mgg_insert_at (n : nat) (c : t_gg T) (v : V) (m : m_gg V T) : option bool * m_gg V T :=
    let (any, given) := m in
    match c with
    | TGG_Any => let (b, s) := hs_insert_at n v any in (b, MGG s given)
    | TGG_Given k =>
        let (b, h) := hm_entry_at n [] k (fun n => hs_insert_at n v) given in (b, MGG any h)
    end.
  (** map.rs 310-319 [insert]. *)
  Definition maa_insert_at (n : nat) (c : t_aa T) (v : V) (m : m_aa V T) : option bool * m_aa V T :=
    let (any, sames, samep, given) := m in
    match c with
    | TAA_Any => let (b, s) := hs_insert_at n v any in (b, MAA s sames samep given)
    | TAA_SameS => let (b, s) := hs_insert_at n v sames in (b, MAA any s samep given)
    | TAA_SameP => let (b, s) := hs_insert_at n v samep in (b, MAA any sames s given)
    | TAA_Given k =>
        let (b, h) := hm_entry_at n [] k (fun n => hs_insert_at n v) given in
        (b, MAA any sames samep h)
    end.
  (** map.rs 387-395 [insert]. *)
  Definition mag_insert_at (n : nat) (c : t_ag T) (v : V) (m : m_ag V T) : option bool * m_ag V T :=
    let (any, sames, given) := m in
    match c with
    | TAG_Any => let (b, s) := hs_insert_at n v any in (b, MAG s sames given)
    | TAG_SameS => let (b, s) := hs_insert_at n v sames in (b, MAG any s given)
    | TAG_Given k =>
        let (b, h) := hm_entry_at n [] k (fun n => hs_insert_at n v) given in (b, MAG any sames h)
    end.
  (** map.rs 62-69 [insert]. *)
  Definition mgs_insert_at (n : nat) (c : t_gs T) (v : V) (m : m_gs V T) : option bool * m_gs V T :=
    let (any, given) := m in
    match c with
    | TG_AnyP r => let (b, a) := mga_insert_at n r v any in (b, MGS a given)
    | TG_GivenP k r =>
        let (b, h) := hm_entry_at n mgg_default k (fun n => mgg_insert_at n r v) given in (b, MGS any h)
    end.
  (** map.rs 242-250 [insert]. *)
  Definition mas_insert_at (n : nat) (c : t_as T) (v : V) (m : m_as V T) : option bool * m_as V T :=
    let (any, sames, given) := m in
    match c with
    | TA_AnyP r => let (b, a) := maa_insert_at n r v any in (b, MAS a sames given)
    | TA_SameS r => let (b, a) := mag_insert_at n r v sames in (b, MAS any a given)
    | TA_GivenP k r =>
        let (b, h) := hm_entry_at n mag_default k (fun n => mag_insert_at n r v) given in
        (b, MAS any sames h)
    end.
  (** map.rs 20-27 [insert]. *)
  Definition tpm_insert_at (n : nat) (c : ctp T) (v : V) (m : tpm V T) : option bool * tpm V T :=
    let (any, given) := m in
    match c with
    | CT_AnyS r => let (b, a) := mas_insert_at n r v any in (b, TPM a given)
    | CT_GivenS k r =>
        let (b, h) := hm_entry_at n mgs_default k (fun n => mgs_insert_at n r v) given in (b, TPM any h)
    end.

  (** std [HashSet::extend], [HashMap::extend]: one insertion after the other; [Some n]
      is the number of look-ups left. *)
  Fixpoint hs_extend_at (n : nat) (s l : list V) : option nat * list V :=
    match l, n with
    | [], _ => (Some n, s)
    | _ :: _, O => (None, s)
    | v :: r, S n => hs_extend_at n (snd (hs_insert veqb v s)) r
    end.
  Fixpoint hm_extend_at {A} (n : nat) (h l : list (T * A)) : option nat * list (T * A) :=
    match l, n with
    | [], _ => (Some n, h)
    | _ :: _, O => (None, h)
    | (k, a) :: r, S n => hm_extend_at n (hm_set teqb k a h) r
    end.
  (** Two statements, one after the other. *)
  Definition then_at {A B} (f : nat -> option nat * A) (b : B) (g : nat -> option nat * B) (n : nat)
    : option nat * (A * B) :=
    match f n with
    | (None, a) => (None, (a, b))
    | (Some n, a) => let (r, b) := g n in (r, (a, b))
    end.

  (** map.rs 153-157 [union_with]. *)
  Definition mga_union_at (n : nat) (m o : m_ga V T) : option nat * m_ga V T :=
    let '(r, (a, (p, g))) :=
      then_at (fun n => hs_extend_at n (mga_any m) (mga_any o)) (mga_samep m, mga_given m)
        (then_at (fun n => hs_extend_at n (mga_samep m) (mga_samep o)) (mga_given m)
           (fun n => hm_extend_at n (mga_given m) (mga_given o))) n in
    (r, MGA a p g).
  (** map.rs 212-215 [union_with]. *)
  Definition mgg_union_at (n : nat) (m o : m_gg V T) : option nat * m_gg V T :=
    let '(r, (a, g)) :=
      then_at (fun n => hs_extend_at n (mgg_any m) (mgg_any o)) (mgg_given m)
        (fun n => hm_extend_at n (mgg_given m) (mgg_given o)) n in
    (r, MGG a g).
  (** map.rs 351-356 [union_with]. *)
  Definition maa_union_at (n : nat) (m o : m_aa V T) : option nat * m_aa V T :=
    let '(r, (a, (s, (p, g)))) :=
      then_at (fun n => hs_extend_at n (maa_any m) (maa_any o)) (maa_sames m, (maa_samep m, maa_given m))
        (then_at (fun n => hs_extend_at n (maa_sames m) (maa_sames o)) (maa_samep m, maa_given m)
          (then_at (fun n => hs_extend_at n (maa_samep m) (maa_samep o)) (maa_given m)
             (fun n => hm_extend_at n (maa_given m) (maa_given o)))) n in
    (r, MAA a s p g).
  (** map.rs 421-425 [union_with]. *)
  Definition mag_union_at (n : nat) (m o : m_ag V T) : option nat * m_ag V T :=
    let '(r, (a, (s, g))) :=
      then_at (fun n => hs_extend_at n (mag_any m) (mag_any o)) (mag_sames m, mag_given m)
        (then_at (fun n => hs_extend_at n (mag_sames m) (mag_sames o)) (mag_given m)
           (fun n => hm_extend_at n (mag_given m) (mag_given o))) n in
    (r, MAG a s g).
  (** map.rs 82-85 [union_with]. *)
  Definition mgs_union_at (n : nat) (m o : m_gs V T) : option nat * m_gs V T :=
    let '(r, (a, g)) :=
      then_at (fun n => mga_union_at n (mgs_any m) (mgs_any o)) (mgs_given m)
        (fun n => hm_extend_at n (mgs_given m) (mgs_given o)) n in
    (r, MGS a g).
  (** map.rs 276-280 [union_with]. *)
  Definition mas_union_at (n : nat) (m o : m_as V T) : option nat * m_as V T :=
    let '(r, (a, (s, g))) :=
      then_at (fun n => maa_union_at n (mas_any m) (mas_any o)) (mas_sames m, mas_given m)
        (then_at (fun n => mag_union_at n (mas_sames m) (mas_sames o)) (mas_given m)
           (fun n => hm_extend_at n (mas_given m) (mas_given o))) n in
    (r, MAS a s g).
End Crash.

(** Insertions one after the other, each with the number of look-ups it may make. *)
Fixpoint insert_runs {P V M} (insert : nat -> P -> V -> M -> option bool * M)
    (l : list (nat * (P * V))) (m : M) : list (option bool) * M :=
  match l with
  | [] => ([], m)
  | (n, (c, v)) :: r =>
      let (b, m1) := insert n c v m in
      let (bs, m2) := insert_runs insert r m1 in (b :: bs, m2)
  end.
