(** The search for a bijection sees resources only through their order and their
    terms: it commutes with a map of resources that respects both. *)
From Coq Require Import List Bool Arith.
Import ListNotations.
From Verif Require Import Base TextModel DisplayModel TermModel TripleModel InterpretationModel
  SetSpec ContainerSpec IsoModel IsoSpec.

(** ** Maps and sets *)
Section Map.
  Context {K L V U : Type} (ck : K -> K -> comparison) (cl : L -> L -> comparison)
    (f : K -> L) (g : V -> U).
  Context (Hc : forall x y, cl (f x) (f y) = ck x y).

  Definition mm (m : list (K * V)) : list (L * U) := map (fun p => (f (fst p), g (snd p))) m.
  Lemma m_get_map k m : m_get cl (f k) (mm m) = option_map g (m_get ck k m).
  Proof.
    induction m as [|[k' v] m IH]; [reflexivity|]. cbn. rewrite Hc. now destruct (ck k k').
  Qed.
  Lemma m_contains_map k m : m_contains cl (f k) (mm m) = m_contains ck k m.
  Proof. unfold m_contains. rewrite m_get_map. now destruct (m_get ck k m). Qed.
  Lemma m_alter_map k F F' m : (forall o, F' (option_map g o) = g (F o)) ->
    m_alter cl (f k) F' (mm m) = mm (m_alter ck k F m).
  Proof.
    intros H. induction m as [|[k' v] m IH]; cbn.
    - now rewrite <- (H None).
    - rewrite Hc. destruct (ck k k'); cbn.
      + now rewrite <- (H (Some v)).
      + now rewrite <- (H None).
      + f_equal. apply IH.
  Qed.
  Lemma m_insert_map k v m : m_insert cl (f k) (g v) (mm m) = mm (m_insert ck k v m).
  Proof. now apply m_alter_map. Qed.
  Lemma mm_length m : length (mm m) = length m.
  Proof. apply map_length. Qed.
  Lemma s_insert_map k s : s_insert cl (f k) (map f s) = map f (s_insert ck k s).
  Proof.
    induction s as [|k' s IH]; [reflexivity|]. cbn. rewrite Hc.
    destruct (ck k k'); [reflexivity|reflexivity|]. cbn. now rewrite IH.
  Qed.
  Lemma sort_insert_map x l : sort_insert cl (f x) (map f l) = map f (sort_insert ck x l).
  Proof.
    induction l as [|y l IH]; [reflexivity|]. cbn. rewrite Hc.
    destruct (ck x y); [reflexivity|reflexivity|]. cbn. now rewrite IH.
  Qed.
  Lemma sort_unstable_map l : sort_unstable cl (map f l) = map f (sort_unstable ck l).
  Proof.
    induction l as [|x l IH]; [reflexivity|]. cbn. unfold sort_unstable in *. rewrite IH.
    apply sort_insert_map.
  Qed.
End Map.

(** ** The search *)
Section Iso.
  Context {R T St Su : Type} (cr : R -> R -> comparison) (ct : T -> T -> comparison) (f : R -> T).
  Context (ie te ie' te' : text -> text -> bool).
  Context (I : interp_rev St R) (st : St) (J : interp_rev Su T) (su : Su).
  Context (Hc : forall x y, ct (f x) (f y) = cr x y).
  Context (Ha : forall x, i_is_anonymous J su (f x) = i_is_anonymous I st x).
  Context (Hs : forall x y, shares_term ie' te' J su (f x) (f y) = shares_term ie te I st x y).

  Lemma quad_cmp_map p q : quad_cmp ct (qmap f p) (qmap f q) = quad_cmp cr p q.
  Proof.
    destruct p as [s p o [g|]], q as [s' p' o' [g'|]]; unfold quad_cmp; cbn; now rewrite !Hc.
  Qed.
  Lemma resource_matches_map x y :
    resource_matches ie' te' J su (f x) (f y) = resource_matches ie te I st x y.
  Proof. unfold resource_matches. now rewrite Hs, !Ha. Qed.
  Lemma quad_with_map F F' p q : (forall x y, F' (f x) (f y) = F x y) ->
    quad_with F' (qmap f p) (qmap f q) = quad_with F p q.
  Proof.
    intros H. destruct p as [s p o [g|]], q as [s' p' o' [g'|]]; unfold quad_with; cbn; now rewrite !H.
  Qed.
  Lemma blank_count_map q : blank_count J su (qmap f q) = blank_count I st q.
  Proof. destruct q as [s p o [g|]]; unfold blank_count; cbn; now rewrite !Ha. Qed.
  Lemma total_blank_count_map d :
    total_blank_count J su (map (qmap f) d) = total_blank_count I st d.
  Proof.
    unfold total_blank_count. generalize 0. induction d as [|q d IH]; intros n; [reflexivity|].
    cbn. rewrite blank_count_map. apply IH.
  Qed.
  Local Notation sigs := (mm f (map (qmap f))).
  Lemma collect_at_map r q m :
    collect_at ct J su (f r) (qmap f q) (sigs m) = sigs (collect_at cr I st r q m).
  Proof.
    unfold collect_at. rewrite Ha. destruct (i_is_anonymous I st r); [|reflexivity].
    apply m_alter_map; [exact Hc|]. intros [s|]; [|reflexivity]. cbn. unfold sig_insert.
    now rewrite map_app.
  Qed.
  Lemma collect_quad_map m q :
    collect_quad ct J su (sigs m) (qmap f q) = sigs (collect_quad cr I st m q).
  Proof.
    unfold collect_quad. change (q_s (qmap f q)) with (f (q_s q)). change (q_p (qmap f q)) with (f (q_p q)).
    change (q_o (qmap f q)) with (f (q_o q)). rewrite !collect_at_map.
    change (q_g (qmap f q)) with (option_map f (q_g q)).
    destruct (q_g q) as [g|]; [apply collect_at_map|reflexivity].
  Qed.
  Lemma collect_signatures_map d :
    collect_signatures ct J su (map (qmap f) d) = sigs (collect_signatures cr I st d).
  Proof.
    unfold collect_signatures.
    assert (H : forall m, fold_left (collect_quad ct J su) (map (qmap f) d) (sigs m) =
                          sigs (fold_left (collect_quad cr I st) d m)).
    { induction d as [|q d IH]; intros m; [reflexivity|]. cbn. rewrite collect_quad_map. apply IH. }
    change (@nil (T * list (quad T))) with (sigs (@nil (R * list (quad R)))). rewrite H. clear H.
    unfold mm. rewrite !map_map. apply map_ext. intros [r s]. cbn. f_equal.
    apply sort_unstable_map. apply quad_cmp_map.
  Qed.
  Local Notation grps := (mm (fun n : nat => n) sigs).
  Lemma split_by_size_map m : split_by_size ct (sigs m) = grps (split_by_size cr m).
  Proof.
    unfold split_by_size. change (@nil (nat * list (T * list (quad T)))) with (grps []).
    generalize (@nil (nat * list (R * list (quad R)))).
    induction m as [|[r s] m IH]; intros g; [reflexivity|].
    change (sigs ((r, s) :: m)) with ((f r, map (qmap f) s) :: sigs m). cbn [fold_left].
    rewrite <- IH. f_equal. rewrite map_length.
    apply (m_alter_map Nat.compare Nat.compare (fun n => n)); [reflexivity|].
    intros [h|]; cbn [option_map].
    - apply m_insert_map. exact Hc.
    - reflexivity.
  Qed.
  Lemma take_match_map F F' q : (forall p q, F' (qmap f p) (qmap f q) = F p q) -> forall l,
    take_match F' (qmap f q) (map (option_map (qmap f)) l) =
    option_map (map (option_map (qmap f))) (take_match F q l).
  Proof.
    intros H l. induction l as [|[o|] l IH]; [reflexivity|..]; cbn.
    - rewrite H. destruct (F q o); [reflexivity|]. rewrite IH. now destruct (take_match F q l).
    - rewrite IH. now destruct (take_match F q l).
  Qed.
  Lemma take_all_map F F' : (forall p q, F' (qmap f p) (qmap f q) = F p q) -> forall l o,
    take_all F' (map (qmap f) l) (map (option_map (qmap f)) o) = take_all F l o.
  Proof.
    intros H l. induction l as [|q l IH]; intros o; [reflexivity|]. cbn.
    rewrite (take_match_map F F' q H). destruct (take_match F q o) as [o'|]; [apply IH|reflexivity].
  Qed.
  Lemma sig_with_map F F' a b : (forall p q, F' (qmap f p) (qmap f q) = F p q) ->
    sig_with F' (map (qmap f) a) (map (qmap f) b) = sig_with F a b.
  Proof.
    intros H. unfold sig_with. rewrite !map_length. destruct (length a =? length b); [|reflexivity].
    rewrite <- (take_all_map F F' H). now rewrite !map_map.
  Qed.
  Lemma sig_matches_map a b :
    sig_matches ie' te' J su (map (qmap f) a) (map (qmap f) b) = sig_matches ie te I st a b.
  Proof.
    apply sig_with_map. intros p q. apply quad_with_map. exact resource_matches_map.
  Qed.

  Definition bmap (s : bijection R) : bijection T :=
    Bijection (mm f f (forward s)) (mm f f (backward s)).
  Lemma bij_insert_map x y s : bij_insert ct (f x) (f y) (bmap s) = bmap (bij_insert cr x y s).
  Proof.
    unfold bij_insert, bmap. cbn [forward backward].
    now rewrite !(m_insert_map cr ct f f Hc).
  Qed.
  Lemma sig_matches_with_map s a b :
    sig_matches_with ct ie' te' J su (bmap s) (map (qmap f) a) (map (qmap f) b) =
    sig_matches_with cr ie te I st s a b.
  Proof.
    apply sig_with_map. intros p q. apply quad_with_map. intros x y.
    unfold resource_matches_with. rewrite Hs. cbn [bmap forward backward].
    rewrite !(m_get_map cr ct f f Hc). f_equal.
    destruct (m_get cr x (forward s)) as [c|]; cbn.
    - unfold r_eqb. now rewrite Hc.
    - destruct (m_get cr y (backward s)) as [c|]; [|reflexivity]. cbn. unfold r_eqb. now rewrite Hc.
  Qed.
  Local Notation cnds := (mm f (map f)).
  Lemma find_from_candidates_map cands : forall s am bm,
    find_from_candidates ct ie' te' J su (bmap s) (cnds cands) (sigs am) (sigs bm) =
    option_map (option_map bmap) (find_from_candidates cr ie te I st s cands am bm).
  Proof.
    induction cands as [|[a bs] cands IH]; intros s am bm; [reflexivity|].
    change (cnds ((a, bs) :: cands)) with ((f a, map f bs) :: cnds cands). cbn [find_from_candidates].
    change (backward (bmap s)) with (mm f f (backward s)).
    rewrite (m_get_map cr ct f (map (qmap f)) Hc a am).
    destruct (m_get cr a am) as [sa|]; cbn [option_map];
      induction bs as [|b bs IHb]; try reflexivity; cbn [map];
      rewrite (m_contains_map cr ct f f Hc); (destruct (m_contains cr b (backward s)); [exact IHb|]).
    2:reflexivity.
    rewrite (m_get_map cr ct f (map (qmap f)) Hc b bm), bij_insert_map.
    destruct (m_get cr b bm) as [sb|]; [|reflexivity]. cbn [option_map].
    rewrite sig_matches_with_map.
    destruct (sig_matches_with cr ie te I st (bij_insert cr a b s) sa sb); [|exact IHb].
    rewrite IH.
    destruct (find_from_candidates cr ie te I st (bij_insert cr a b s) cands am bm) as [[r|]|];
      [reflexivity| |reflexivity]. cbn [option_map]. exact IHb.
  Qed.
  Lemma candidates_of_map sa g :
    candidates_of ct ie' te' J su (map (qmap f) sa) (sigs g) = map f (candidates_of cr ie te I st sa g).
  Proof.
    unfold candidates_of. change (@nil T) with (map f []). generalize (@nil R).
    induction g as [|[b sb] g IH]; intros c; [reflexivity|].
    change (sigs ((b, sb) :: g)) with ((f b, map (qmap f) sb) :: sigs g). cbn [fold_left].
    rewrite sig_matches_map. destruct (sig_matches ie te I st sa sb); [|apply IH].
    rewrite (s_insert_map cr ct f Hc). apply IH.
  Qed.
  Lemma candidates_group_map ag : forall bg c,
    candidates_group ct ie' te' J su (sigs ag) (sigs bg) (cnds c) =
    option_map cnds (candidates_group cr ie te I st ag bg c).
  Proof.
    induction ag as [|[a sa] ag IH]; intros bg c; [reflexivity|].
    change (sigs ((a, sa) :: ag)) with ((f a, map (qmap f) sa) :: sigs ag). cbn [candidates_group]. rewrite candidates_of_map.
    destruct (candidates_of cr ie te I st sa bg) as [|x bs]; [reflexivity|].
    cbn [map]. change (f x :: map f bs) with (map f (x :: bs)).
    rewrite (m_insert_map cr ct f (map f) Hc). apply IH.
  Qed.
  Lemma candidates_map ags : forall bgs c,
    candidates ct ie' te' J su (grps ags) (grps bgs) (cnds c) =
    option_map (option_map cnds) (candidates cr ie te I st ags bgs c).
  Proof.
    induction ags as [|[n ag] ags IH]; intros bgs c; [reflexivity|].
    change (grps ((n, ag) :: ags)) with ((n, sigs ag) :: grps ags). cbn [candidates].
    rewrite (m_get_map Nat.compare Nat.compare (fun n => n) sigs (fun _ _ => eq_refl)).
    destruct (m_get Nat.compare n bgs) as [bg|]; [|reflexivity]. cbn [option_map].
    rewrite candidates_group_map.
    destruct (candidates_group cr ie te I st ag bg c) as [c'|]; [apply IH|reflexivity].
  Qed.
  Theorem find_bijection_with_map a b :
    find_bijection_with ct ie' te' J su (map (qmap f) a) (map (qmap f) b) =
    option_map (option_map bmap) (find_bijection_with cr ie te I st a b).
  Proof.
    unfold find_bijection_with. rewrite !map_length, !total_blank_count_map.
    destruct (length a =? length b); [|reflexivity]. cbn [negb].
    destruct (total_blank_count I st a =? total_blank_count I st b); [|reflexivity]. cbn [negb].
    rewrite !collect_signatures_map, !mm_length.
    destruct (length (collect_signatures cr I st a) =? length (collect_signatures cr I st b));
      [|reflexivity]. cbn [negb].
    rewrite !split_by_size_map, !mm_length.
    generalize (collect_signatures cr I st a) (collect_signatures cr I st b). intros am bm.
    generalize (split_by_size cr am) (split_by_size cr bm). intros ag bg.
    destruct (length ag =? length bg); [|reflexivity]. cbn [negb].
    replace (forallb (fun '(n, _) => m_contains Nat.compare n (grps bg)) (grps ag)) with
      (forallb (fun '(n, _) => m_contains Nat.compare n bg) ag).
    2:{ induction ag as [|[n g] ag IH]; [reflexivity|]. 
        change (grps ((n, g) :: ag)) with ((n, sigs g) :: grps ag). cbn [forallb]. f_equal; [|exact IH].
        symmetry. apply (m_contains_map Nat.compare Nat.compare (fun n => n)). reflexivity. }
    destruct (forallb (fun '(n, _) => m_contains Nat.compare n bg) ag); [|reflexivity]. cbn [negb].
    change (@nil (T * list T)) with (cnds []). rewrite candidates_map.
    destruct (candidates cr ie te I st ag bg []) as [[c|]|]; [|reflexivity..]. cbn [option_map].
    change (@bij_new T) with (bmap bij_new). apply find_from_candidates_map.
  Qed.
End Iso.
