(** The work of a query: rounds of the loop and their measures. *)
From Coq Require Import List Bool Arith Lia.
Import ListNotations.
From Verif Require Import Base SlabModel TripleModel TriplePatternModel QuadPatternModel BaseProofs
  IResourceModel IndexedDatasetModel IndexedGraphModel QueryCostModel.
Open Scope panic_scope.

(** ** Counting changes nothing *)
Lemma drop_counted i l :
  exists n, drop_lt_counted i l = (drop_lt i l, n) /\ n + length (drop_lt i l) = length l.
Proof.
  induction l as [|j l (n & E & H)]; cbn [drop_lt_counted drop_lt]; [exists 0; split; reflexivity|].
  destruct (j <? i); [|exists 0; split; reflexivity]; rewrite E; exists (S n); cbn [length]; split; [reflexivity|lia].
Qed.

Definition fixed_size {Q} (c : constraint Q) : nat := match c with CFixed l => length l | _ => 0 end.

Lemma s_counted {Q} (c : constraint Q) i :
  exists n, s_next_counted c i = (s_next c i, n) /\ n + fixed_size (snd (s_next c i)) = fixed_size c.
Proof.
  destruct c as [| | |l]; cbn; try (exists 0; split; reflexivity).
  destruct (drop_counted i l) as (n & -> & H); exists n; now split.
Qed.
Lemma c_counted {Q} (c : constraint Q) i q :
  exists n, c_next_counted c i q = (c_next c i q, n) /\ n + fixed_size (snd (c_next c i q)) = fixed_size c.
Proof.
  destruct c as [| | |l]; cbn; try (exists 0; split; reflexivity).
  destruct (drop_counted i l) as (n & -> & H); exists n; now split.
Qed.

(** ** One round *)
Inductive move := Stop | Again (m : pm) | Yield (i : nat) (q : quad nat) (m : pm).

Definition round (qs : slab (quad nat)) (m : pm) : move :=
  let '(r, cs) := s_next (pm_s m) (pm_i m) in
  match r with
  | None => Stop
  | Some i =>
      match sget qs i with
      | None => Stop
      | Some q =>
          let '(a, cp) := c_next (pm_p m) i q in
          match a with
          | NErr None => Stop
          | NErr (Some j) => Again (PM cs cp (pm_o m) (pm_g m) j)
          | NOk =>
              let '(a, co) := c_next (pm_o m) i q in
              match a with
              | NErr None => Stop
              | NErr (Some j) => Again (PM cs cp co (pm_g m) j)
              | NOk =>
                  let '(a, cg) := c_next (pm_g m) i q in
                  match a with
                  | NErr None => Stop
                  | NErr (Some j) => Again (PM cs cp co cg j)
                  | NOk => Yield i q (PM cs cp co cg (S i))
                  end
              end
          end
      end
  end.

Definition sizes (m : pm) : nat :=
  fixed_size (pm_s m) + fixed_size (pm_p m) + fixed_size (pm_o m) + fixed_size (pm_g m).
Definition left_over (m : pm) (mv : move) (n : nat) : Prop :=
  match mv with Stop => n <= sizes m | Again m' | Yield _ _ m' => n + sizes m' = sizes m end.

Lemma pm_next_round fuel cap qs m :
  exists n, left_over m (round qs m) n /\
  pm_next_counted (S fuel) cap qs m =
  if pm_i m <? cap then
    match round qs m with
    | Stop => Some (None, Work 1 n)
    | Again m' => '(x, w) <- pm_next_counted fuel cap qs m' ;; Some (x, also (Work 1 n) w)
    | Yield i q m' => Some (Some (i, q, m'), Work 1 n)
    end
  else Some (None, no_work).
Proof.
  cbn [pm_next_counted]; unfold round, left_over, sizes.
  destruct (s_counted (pm_s m) (pm_i m)) as (ns & -> & Hs).
  destruct (s_next (pm_s m) (pm_i m)) as [[i|] cs]; cbn [snd] in Hs.
  2: { exists ns; split; [lia|reflexivity]. }
  destruct (sget qs i) as [q|].
  2: { exists ns; split; [lia|reflexivity]. }
  destruct (c_counted (pm_p m) i q) as (np & -> & Hp).
  destruct (c_next (pm_p m) i q) as [[|[j|]] cp]; cbn [snd] in Hp.
  2, 3: exists (ns + np); cbn [pm_s pm_p pm_o pm_g]; split; [lia|reflexivity].
  destruct (c_counted (pm_o m) i q) as (no & -> & Ho).
  destruct (c_next (pm_o m) i q) as [[|[j|]] co]; cbn [snd] in Ho.
  2, 3: exists (ns + np + no); cbn [pm_s pm_p pm_o pm_g]; split; [lia|reflexivity].
  destruct (c_counted (pm_g m) i q) as (ng & -> & Hg).
  destruct (c_next (pm_g m) i q) as [[|[j|]] cg]; cbn [snd] in Hg;
    exists (ns + np + no + ng); cbn [pm_s pm_p pm_o pm_g]; (split; [lia|reflexivity]).
Qed.

Lemma pm_next_plain fuel cap qs m :
  pm_next (S fuel) cap qs m =
  if pm_i m <? cap then
    match round qs m with
    | Stop => Some None
    | Again m' => pm_next fuel cap qs m'
    | Yield i q m' => Some (Some (i, q, m'))
    end
  else Some None.
Proof.
  cbn [pm_next]; unfold round.
  destruct (pm_i m <? cap); [|reflexivity].
  destruct (s_next (pm_s m) (pm_i m)) as [[i|] cs]; [|reflexivity].
  destruct (sget qs i) as [q|]; [|reflexivity].
  destruct (c_next (pm_p m) i q) as [[|[j|]] cp]; try reflexivity.
  destruct (c_next (pm_o m) i q) as [[|[j|]] co]; try reflexivity.
  destruct (c_next (pm_g m) i q) as [[|[j|]] cg]; reflexivity.
Qed.

Lemma pm_next_counted_same fuel cap qs : forall m,
  option_map fst (pm_next_counted fuel cap qs m) = pm_next fuel cap qs m.
Proof.
  induction fuel as [|fuel IH]; intros m; [reflexivity|].
  destruct (pm_next_round fuel cap qs m) as (n & _ & ->); rewrite pm_next_plain.
  destruct (pm_i m <? cap); [|reflexivity]; destruct (round qs m) as [|m'|i q m']; try reflexivity.
  rewrite <- IH; destruct (pm_next_counted fuel cap qs m') as [[]|]; reflexivity.
Qed.

Lemma pm_collect_counted_same {R} fuel cap (d : @idataset R) : forall m,
  option_map fst (pm_collect_counted fuel cap d m) = pm_collect fuel cap d m.
Proof.
  induction fuel as [|fuel IH]; intros m; [reflexivity|]; cbn [pm_collect pm_collect_counted].
  rewrite <- pm_next_counted_same.
  destruct (pm_next_counted (S cap) cap (id_quads d) m) as [[[[[i q] m']|] w]|]; cbn; try reflexivity.
  destruct (i_quad_with_resources (id_resources d) q) as [x|]; cbn; [|reflexivity].
  rewrite <- IH; destruct (pm_collect_counted fuel cap d m') as [[]|]; reflexivity.
Qed.

Theorem id_counted_same {R} (cmp : R -> R -> comparison) d spare c :
  option_map fst (id_pattern_matching_counted cmp d spare c) = id_pattern_matching cmp d spare c.
Proof.
  unfold id_pattern_matching_counted, id_pattern_matching.
  destruct (pm_new cmp d c); [|reflexivity]; apply pm_collect_counted_same.
Qed.

(** ** Upper bounds *)
Section Measure.
  Context (qs : slab (quad nat)) (cap : nat) (a b : nat).
  Context (Inv : pm -> Prop) (f : pm -> nat).
  Notation meas w := (a * looked w + b * passed w).
  Hypothesis Hround : forall m n, Inv m -> left_over m (round qs m) n ->
    match round qs m with
    | Stop => a + b * n <= f m
    | Again m' | Yield _ _ m' => Inv m' /\ a + b * n + f m' <= f m
    end.

  Lemma next_meas fuel : forall m r w,
    Inv m -> pm_next_counted fuel cap qs m = Some (r, w) ->
    match r with
    | None => meas w <= f m
    | Some (_, _, m') => Inv m' /\ meas w + f m' <= f m
    end.
  Proof.
    induction fuel as [|fuel IH]; intros m r w Hi E; [discriminate|].
    destruct (pm_next_round fuel cap qs m) as (n & Hl & Er); rewrite Er in E; clear Er.
    specialize (Hround m n Hi Hl).
    destruct (pm_i m <? cap).
    2: { injection E as <- <-; cbn; lia. }
    destruct (round qs m) as [|m'|i q m'].
    - injection E as <- <-; cbn; lia.
    - destruct (pm_next_counted fuel cap qs m') as [[x w']|] eqn:En; [|discriminate]; cbn in E.
      injection E as <- <-; destruct Hround as [Hi' Hle]; specialize (IH _ _ _ Hi' En).
      cbn [also looked passed]; destruct x as [[[i q] m'']|]; [|lia]; destruct IH; split; [assumption|lia].
    - injection E as <- <-; cbn [looked passed]; destruct Hround; split; [assumption|lia].
  Qed.

  Lemma collect_meas {R} fuel (d : @idataset R) (Hd : id_quads d = qs) : forall m l w,
    Inv m -> pm_collect_counted fuel cap d m = Some (l, w) -> meas w <= f m.
  Proof.
    induction fuel as [|fuel IH]; intros m l w Hi E; [discriminate|]; cbn [pm_collect_counted] in E.
    rewrite Hd in E.
    destruct (pm_next_counted (S cap) cap qs m) as [[r w0]|] eqn:En; [|discriminate]; cbn [bind] in E.
    apply (next_meas _ _ _ _ Hi) in En; destruct r as [[[i q] m']|].
    - destruct (i_quad_with_resources (id_resources d) q); [|discriminate]; cbn [bind] in E.
      destruct (pm_collect_counted fuel cap d m') as [[l' w']|] eqn:Ec; [|discriminate].
      injection E as <- <-; destruct En as [Hi' Hle]; specialize (IH _ _ _ Hi' Ec); cbn [also looked passed]; lia.
    - injection E as <- <-; exact En.
  Qed.
End Measure.

(** The entries passed over. *)
Lemma collect_passed {R} fuel cap (d : @idataset R) m l w :
  pm_collect_counted fuel cap d m = Some (l, w) -> passed w <= sizes m.
Proof.
  intros E; enough (0 * looked w + 1 * passed w <= sizes m) by lia.
  eapply (collect_meas (id_quads d) cap 0 1 (fun _ => True) sizes); eauto.
  intros m0 n _; unfold left_over; destruct (round (id_quads d) m0); try split; auto; lia.
Qed.

Lemma drop_le i l : length (drop_lt i l) <= length l.
Proof. destruct (drop_counted i l) as (n & _ & H); lia. Qed.
Lemma drop_head i l j r : drop_lt i l = j :: r -> i <= j.
Proof.
  induction l as [|k l IH]; cbn [drop_lt]; [discriminate|]; destruct (k <? i) eqn:E; [auto|].
  intros H; injection H as -> ->; now apply Nat.ltb_ge in E.
Qed.
Lemma drop_drop i i' l : i <= i' -> drop_lt i' (drop_lt i l) = drop_lt i' l.
Proof.
  intros H; induction l as [|k l IH]; cbn [drop_lt]; [reflexivity|].
  destruct (k <? i) eqn:E; [|reflexivity]; rewrite IH; cbn [drop_lt].
  apply Nat.ltb_lt in E; assert (k <? i' = true) as -> by (apply Nat.ltb_lt; lia); reflexivity.
Qed.
Lemma drop_here i j l : i < j -> drop_lt j (i :: l) = drop_lt j l.
Proof. intros H; cbn [drop_lt]; apply Nat.ltb_lt in H; now rewrite H. Qed.
Lemma drop_stay j l : drop_lt j (j :: l) = j :: l.
Proof. cbn [drop_lt]; now rewrite Nat.ltb_irrefl. Qed.

Lemma s_next_ge {Q} (c : constraint Q) i k cs : s_next c i = (Some k, cs) -> i <= k.
Proof.
  destruct c as [| | |l]; cbn; intros E; try discriminate; [injection E as <- _; lia|].
  destruct (drop_lt i l) as [|j r] eqn:D; [discriminate|]; injection E as <- _; eauto using drop_head.
Qed.
Lemma c_next_gt {Q} (c : constraint Q) i q j c' : c_next c i q = (NErr (Some j), c') -> i < j.
Proof.
  destruct c as [| |t|l]; cbn; intros E; try discriminate.
  - destruct (t q); [discriminate|]; injection E as <- _; lia.
  - destruct (drop_lt i l) as [|k r] eqn:D; [discriminate|]; destruct (k =? i) eqn:Ek; [discriminate|].
    injection E as <- _; apply drop_head in D; apply Nat.eqb_neq in Ek; lia.
Qed.

(** Where a round starts looking, and where the next one does. *)
Lemma round_moves qs m :
  match round qs m with
  | Stop => True
  | Again m' | Yield _ _ m' =>
      exists i cs q, s_next (pm_s m) (pm_i m) = (Some i, cs) /\ sget qs i = Some q /\
        pm_s m' = cs /\ i < pm_i m'
  end.
Proof.
  unfold round; destruct (s_next (pm_s m) (pm_i m)) as [[i|] cs]; [|exact I].
  destruct (sget qs i) as [q|] eqn:Eq; [|exact I].
  destruct (c_next (pm_p m) i q) as [[|[j|]] cp] eqn:Ep; [| |exact I].
  2: { exists i, cs, q; apply c_next_gt in Ep; auto. }
  destruct (c_next (pm_o m) i q) as [[|[j|]] co] eqn:Eo; [| |exact I].
  2: { exists i, cs, q; apply c_next_gt in Eo; auto. }
  destruct (c_next (pm_g m) i q) as [[|[j|]] cg] eqn:Eg; [| |exact I].
  - exists i, cs, q; auto.
  - exists i, cs, q; apply c_next_gt in Eg; auto.
Qed.

(** All the slots. *)
Lemma collect_slots {R} fuel cap (d : @idataset R) m l w :
  pm_collect_counted fuel cap d m = Some (l, w) -> looked w <= S (length (ents (id_quads d)) - pm_i m).
Proof.
  intros E; enough (1 * looked w + 0 * passed w <= S (length (ents (id_quads d)) - pm_i m)) by lia.
  eapply (collect_meas (id_quads d) cap 1 0 (fun _ => True)
            (fun m => S (length (ents (id_quads d)) - pm_i m))); eauto.
  intros m0 n _ _; pose proof (round_moves (id_quads d) m0) as H.
  destruct (round (id_quads d) m0) as [|m'|i0 q0 m']; [lia| |];
    destruct H as (i & cs & q & Es & Eq & _ & Hi); apply s_next_ge in Es; apply sget_lt in Eq;
    (split; [exact I|lia]).
Qed.

(** The index of a subject. *)
Definition s_fixed (m : pm) : Prop := match pm_s m with CAny => False | _ => True end.
Definition s_left (m : pm) : nat :=
  match pm_s m with CFixed l => S (length (drop_lt (pm_i m) l)) | _ => 1 end.
Lemma collect_subject {R} fuel cap (d : @idataset R) m l w :
  s_fixed m -> pm_collect_counted fuel cap d m = Some (l, w) -> looked w <= S (fixed_size (pm_s m)).
Proof.
  intros Hf E; enough (1 * looked w + 0 * passed w <= s_left m).
  { unfold s_left, fixed_size in *; destruct (pm_s m); try lia.
    pose proof (drop_le (pm_i m) l0); lia. }
  eapply (collect_meas (id_quads d) cap 1 0 s_fixed s_left); eauto.
  clear - R; intros m n Hf _; pose proof (round_moves (id_quads d) m) as H.
  assert (N : forall m', (exists i cs q, s_next (pm_s m) (pm_i m) = (Some i, cs) /\
      sget (id_quads d) i = Some q /\ pm_s m' = cs /\ i < pm_i m') ->
      s_fixed m' /\ 1 + 0 * n + s_left m' <= s_left m).
  { intros m' (i & cs & q & Es & _ & E' & Hi); unfold s_fixed, s_left in *; rewrite E'.
    destruct (pm_s m) as [| | |l]; cbn in Es; try discriminate; [contradiction|].
    destruct (drop_lt (pm_i m) l) as [|j r]; [discriminate|]; injection Es as -> <-.
    rewrite drop_here by assumption; pose proof (drop_le (pm_i m') r); cbn [length]; split; [exact I|lia]. }
  destruct (round (id_quads d) m); [|apply N, H|apply N, H].
  unfold s_left; destruct (pm_s m); lia.
Qed.

(** The index of another component, consulted in every round. *)
Definition pot (i : nat) (l : list nat) : nat :=
  match drop_lt i l with
  | [] => 1
  | j :: r => if j =? i then 2 * S (length r) else S (2 * S (length r))
  end.
Lemma pot_pos i l : 1 <= pot i l.
Proof. unfold pot; destruct (drop_lt i l) as [|j r]; [lia|]; destruct (j =? i); lia. Qed.
Lemma pot_le i l : pot i l <= S (2 * length l).
Proof.
  unfold pot; pose proof (drop_le i l); destruct (drop_lt i l) as [|j r]; cbn [length] in *; [lia|].
  destruct (j =? i); lia.
Qed.
Lemma pot_skip i0 i l j r : i0 <= i -> drop_lt i l = j :: r -> j <> i -> S (2 * S (length r)) <= pot i0 l.
Proof.
  intros Hi D Hj; rewrite <- (drop_drop i0) in D by assumption; unfold pot.
  pose proof (drop_le i (drop_lt i0 l)) as Hle; rewrite D in Hle.
  destruct (drop_lt i0 l) as [|j0 r0] eqn:D0; [discriminate|]; cbn [length] in Hle.
  destruct (j0 =? i0) eqn:E0; [|lia]; apply Nat.eqb_eq in E0; subst j0.
  destruct (Nat.eq_dec i i0) as [->|N].
  - rewrite drop_stay in D; injection D as -> _; congruence.
  - rewrite drop_here in D by lia; pose proof (drop_le i r0) as H; rewrite D in H; cbn in H; lia.
Qed.
Lemma pot_take i0 i l r : i0 <= i -> drop_lt i l = i :: r -> 2 * S (length r) <= pot i0 l.
Proof.
  intros Hi D; rewrite <- (drop_drop i0) in D by assumption; unfold pot.
  pose proof (drop_le i (drop_lt i0 l)) as Hle; rewrite D in Hle.
  destruct (drop_lt i0 l) as [|j0 r0]; [discriminate|]; cbn [length] in Hle.
  destruct (j0 =? i0); lia.
Qed.
Lemma pot_after i i' r : i < i' -> pot i' (i :: r) <= S (2 * length r).
Proof. intros H; unfold pot; rewrite drop_here by assumption; apply (pot_le i' r). Qed.
Lemma pot_at j r : pot j (j :: r) = 2 * S (length r).
Proof. unfold pot; now rewrite drop_stay, Nat.eqb_refl. Qed.

Definition c_fixed {Q} (c : constraint Q) : Prop :=
  match c with CNone | CFixed _ => True | _ => False end.
Definition c_pot (i : nat) {Q} (c : constraint Q) : nat := match c with CFixed l => pot i l | _ => 1 end.

(** What the round does with the component. *)
Definition consults (get : pm -> constraint (quad nat)) (m m' : pm) : Prop :=
  exists i q, pm_i m <= i /\
    (get m' = snd (c_next (get m) i q)) /\
    ((fst (c_next (get m) i q) = NErr (Some (pm_i m'))) \/
     (fst (c_next (get m) i q) = NOk /\ i < pm_i m')).

Lemma consults_pot get m m' :
  c_fixed (get m) -> consults get m m' ->
  c_fixed (get m') /\ S (c_pot (pm_i m') (get m')) <= c_pot (pm_i m) (get m).
Proof.
  intros Hf (i & q & Hi & -> & H); destruct (get m) as [| | |l]; try contradiction.
  - cbn in H; destruct H as [H|[H _]]; discriminate.
  - cbn in H |- *; split; [exact I|].
    destruct (drop_lt i l) as [|j r] eqn:D.
    { destruct H as [H|[H _]]; discriminate. }
    destruct (j =? i) eqn:E.
    + apply Nat.eqb_eq in E; subst j; destruct H as [H|[_ H]]; [discriminate|].
      pose proof (pot_take _ _ _ _ Hi D); pose proof (pot_after _ _ r H); lia.
    + apply Nat.eqb_neq in E; destruct H as [H|[H _]]; [|discriminate]; injection H as <-.
      pose proof (pot_skip _ _ _ _ _ Hi D E); rewrite pot_at; lia.
Qed.

Section Key.
  Context (get : pm -> constraint (quad nat)) (before : pm -> Prop).
  Hypothesis Hconsults : forall qs m, before m ->
    match round qs m with
    | Stop => True
    | Again m' | Yield _ _ m' => before m' /\ consults get m m'
    end.

  Lemma collect_key {R} fuel cap (d : @idataset R) m l w :
    before m -> c_fixed (get m) -> pm_collect_counted fuel cap d m = Some (l, w) ->
    looked w <= S (2 * fixed_size (get m)).
  Proof.
    intros Hb Hf E; enough (1 * looked w + 0 * passed w <= c_pot (pm_i m) (get m)).
    { unfold c_pot, fixed_size in *; destruct (get m); try lia; pose proof (pot_le (pm_i m) l0); lia. }
    eapply (collect_meas (id_quads d) cap 1 0 (fun m => before m /\ c_fixed (get m))
              (fun m => c_pot (pm_i m) (get m))); eauto.
    clear - Hconsults; intros m n [Hb Hf] _; specialize (Hconsults (id_quads d) m Hb).
    destruct (round (id_quads d) m).
    - unfold c_pot; destruct (get m); try lia; pose proof (pot_pos (pm_i m) l); lia.
    - destruct Hconsults as [B C]; apply (consults_pot get) in C as [C1 C2]; [|assumption].
      split; [now split|lia].
    - destruct Hconsults as [B C]; apply (consults_pot get) in C as [C1 C2]; [|assumption].
      split; [now split|lia].
  Qed.
End Key.

Ltac look qs m :=
  unfold round; destruct (s_next (pm_s m) (pm_i m)) as [[i|] cs] eqn:Es; [|exact I];
  apply s_next_ge in Es; destruct (sget qs i) as [q|]; [|exact I].

Lemma consults_p qs m :
  match round qs m with Stop => True | Again m' | Yield _ _ m' => True /\ consults pm_p m m' end.
Proof.
  look qs m; destruct (c_next (pm_p m) i q) as [a cp] eqn:Ep.
  assert (N : forall j cg' co', i < j -> a = NOk -> True /\ consults pm_p m (PM cs cp co' cg' j)).
  { intros j cg' co' Hj Ha; split; [exact I|]; exists i, q; rewrite Ep; cbn; split; [assumption|]; auto. }
  destruct a as [|[j|]]; [| |exact I].
  2: { split; [exact I|]; exists i, q; rewrite Ep; cbn; auto. }
  destruct (c_next (pm_o m) i q) as [[|[j|]] co] eqn:Eo; [| |exact I].
  2: { apply N; [eauto using c_next_gt|reflexivity]. }
  destruct (c_next (pm_g m) i q) as [[|[j|]] cg] eqn:Eg; [| |exact I].
  - apply N; auto.
  - apply N; [eauto using c_next_gt|reflexivity].
Qed.
Lemma consults_o qs m : pm_p m = CAny ->
  match round qs m with Stop => True | Again m' | Yield _ _ m' => pm_p m' = CAny /\ consults pm_o m m' end.
Proof.
  intros Hp; look qs m; rewrite Hp; cbn [c_next].
  destruct (c_next (pm_o m) i q) as [a co] eqn:Eo.
  destruct a as [|[j|]]; [| |exact I].
  2: { split; [reflexivity|]; exists i, q; rewrite Eo; cbn; auto. }
  destruct (c_next (pm_g m) i q) as [[|[j|]] cg] eqn:Eg; [| |exact I];
    (split; [reflexivity|]); exists i, q; rewrite Eo; cbn; (split; [assumption|]); (split; [reflexivity|]); right;
    (split; [reflexivity|]); eauto using c_next_gt.
Qed.
Lemma consults_g qs m : pm_p m = CAny /\ pm_o m = CAny ->
  match round qs m with
  | Stop => True
  | Again m' | Yield _ _ m' => (pm_p m' = CAny /\ pm_o m' = CAny) /\ consults pm_g m m'
  end.
Proof.
  intros [Hp Ho]; look qs m; rewrite Hp, Ho; cbn [c_next].
  destruct (c_next (pm_g m) i q) as [a cg] eqn:Eg.
  destruct a as [|[j|]]; [| |exact I]; (split; [now split|]); exists i, q; rewrite Eg; cbn;
    (split; [assumption|]); (split; [reflexivity|]); [right; split; [reflexivity|lia]|now left].
Qed.
