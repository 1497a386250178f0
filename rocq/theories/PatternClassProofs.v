(** Proofs about pattern maps whose equalities are not identity. *)
From Coq Require Import List Bool Arith Permutation.
Import ListNotations.
From Verif Require Import Base TripleModel TriplePatternModel PatternSpec MapSpec PatternMapModel BaseProofs
  PatternMapSpec PatternMapProofs PatternDebugModel PatternCrashModel PatternCrashSpec PatternCrashProofs
  PatternGrowthModel PatternGrowthSpec PatternGrowthProofs PatternTrialModel PatternTrialSpec PatternTrialProofs
  PatternClassSpec.

(** ** Other resources and values *)
Section Renaming.
  Context {V W T U : Type} (veqb : V -> V -> bool) (weqb : W -> W -> bool)
    (teqb : T -> T -> bool) (ueqb : U -> U -> bool) (f : V -> W) (h : T -> U)
    (fe : forall x y, weqb (f x) (f y) = veqb x y) (he : forall x y, ueqb (h x) (h y) = teqb x y).

  Definition hmap {A B} (g : A -> B) (l : list (T * A)) : list (U * B) :=
    map (fun ka => (h (fst ka), g (snd ka))) l.
  Definition both {A B X} (g : A -> B) (x : X * A) : X * B := (fst x, g (snd x)).

  Lemma hs_insert_r v s : hs_insert weqb (f v) (map f s) = both (map f) (hs_insert veqb v s).
  Proof.
    unfold hs_insert. assert (E : existsb (weqb (f v)) (map f s) = existsb (veqb v) s).
    { induction s as [|x s IH]; cbn; [reflexivity|]. now rewrite fe, IH. }
    rewrite E. destruct (existsb (veqb v) s); unfold both; cbn; [reflexivity|]. now rewrite map_app.
  Qed.
  Lemma hs_extend_r l : forall s, hs_extend weqb (map f s) (map f l) = map f (hs_extend veqb s l).
  Proof.
    unfold hs_extend. induction l as [|x l IH]; intros s; cbn; [reflexivity|].
    rewrite hs_insert_r. apply IH.
  Qed.
  Lemma hm_get_r {A B} (g : A -> B) k l : hm_get ueqb (h k) (hmap g l) = option_map g (hm_get teqb k l).
  Proof.
    induction l as [|[x a] l IH]; cbn; [reflexivity|]. rewrite he. destruct (teqb k x); [reflexivity|exact IH].
  Qed.
  Lemma hm_set_r {A B} (g : A -> B) k a l : hm_set ueqb (h k) (g a) (hmap g l) = hmap g (hm_set teqb k a l).
  Proof.
    induction l as [|[x b] l IH]; cbn; [reflexivity|]. rewrite he. destruct (teqb k x); cbn; [reflexivity|].
    f_equal. exact IH.
  Qed.
  Lemma hm_extend_r {A B} (g : A -> B) l : forall s,
    hm_extend ueqb (hmap g s) (hmap g l) = hmap g (hm_extend teqb s l).
  Proof.
    unfold hm_extend. induction l as [|[k a] l IH]; intros s; cbn; [reflexivity|].
    rewrite hm_set_r. apply IH.
  Qed.
  Lemma hm_entry_r {A B} (g : A -> B) d d' k F F' l : g d = d' ->
    (forall a, F' (g a) = both g (F a)) ->
    hm_entry ueqb d' (h k) F' (hmap g l) = both (hmap g) (hm_entry teqb d k F l).
  Proof.
    intros <- E. unfold hm_entry. rewrite hm_get_r.
    replace (match option_map g (hm_get teqb k l) with Some a => a | None => g d end)
      with (g match hm_get teqb k l with Some a => a | None => d end)
      by (destruct (hm_get teqb k l); reflexivity).
    rewrite E. destruct (F _) as [b a]. unfold both. cbn. now rewrite hm_set_r.
  Qed.
  Lemma hm_values_r {A B} (g : A -> B) k (G : A -> list V) (G' : B -> list W) l :
    (forall a, G' (g a) = map f (G a)) ->
    hm_values ueqb (h k) G' (hmap g l) = map f (hm_values teqb k G l).
  Proof.
    intros E. unfold hm_values. rewrite hm_get_r. destruct (hm_get teqb k l); cbn; [apply E|reflexivity].
  Qed.
  Lemma hs_insert_at_r n v s : hs_insert_at weqb n (f v) (map f s) = both (map f) (hs_insert_at veqb n v s).
  Proof.
    destruct n; cbn; [reflexivity|]. rewrite hs_insert_r. destruct (hs_insert veqb v s). reflexivity.
  Qed.
  Lemma hm_entry_at_r {A B} (g : A -> B) n d d' k F F' l : g d = d' ->
    (forall n a, F' n (g a) = both g (F n a)) ->
    hm_entry_at ueqb n d' (h k) F' (hmap g l) = both (hmap g) (hm_entry_at teqb n d k F l).
  Proof.
    intros <- E. destruct n; cbn; [reflexivity|]. rewrite hm_get_r.
    replace (match option_map g (hm_get teqb k l) with Some a => a | None => g d end)
      with (g match hm_get teqb k l with Some a => a | None => d end)
      by (destruct (hm_get teqb k l); reflexivity).
    rewrite E. destruct (F n _) as [b a]. unfold both. cbn. now rewrite hm_set_r.
  Qed.
  Lemma hs_extend_at_r n l : forall s,
    hs_extend_at weqb n (map f s) (map f l) = both (map f) (hs_extend_at veqb n s l).
  Proof.
    revert n. induction l as [|x l IH]; intros [|n] s; cbn; try reflexivity. rewrite hs_insert_r. apply IH.
  Qed.
  Lemma hm_extend_at_r {A B} (g : A -> B) n l : forall s,
    hm_extend_at ueqb n (hmap g s) (hmap g l) = both (hmap g) (hm_extend_at teqb n s l).
  Proof.
    revert n. induction l as [|[k a] l IH]; intros [|n] s; cbn; try reflexivity. rewrite hm_set_r. apply IH.
  Qed.
  Lemma hs_order_r s s' : hs_order s s' -> hs_order (map f s) (map f s').
  Proof. apply Permutation_map. Qed.
  Lemma hm_order_r {A B} (g : A -> B) (o : A -> A -> Prop) (o' : B -> B -> Prop) l l' :
    (forall a a', o a a' -> o' (g a) (g a')) -> hm_order o l l' -> hm_order o' (hmap g l) (hmap g l').
  Proof.
    intros E (l1 & P & F). exists (hmap g l1). split; [apply Permutation_map; exact P|].
    clear P. induction F as [|[k a] [k' a'] x y [H1 H2] _ IH]; cbn; constructor; [|exact IH].
    cbn in *. split; [congruence|auto].
  Qed.

  Arguments hmap : simpl never.
  Definition mga_map (m : m_ga V T) : m_ga W U :=
    MGA (map f (mga_any m)) (map f (mga_samep m)) (hmap (map f) (mga_given m)).
  Definition mgg_map (m : m_gg V T) : m_gg W U := MGG (map f (mgg_any m)) (hmap (map f) (mgg_given m)).
  Definition maa_map (m : m_aa V T) : m_aa W U :=
    MAA (map f (maa_any m)) (map f (maa_sames m)) (map f (maa_samep m)) (hmap (map f) (maa_given m)).
  Definition mag_map (m : m_ag V T) : m_ag W U :=
    MAG (map f (mag_any m)) (map f (mag_sames m)) (hmap (map f) (mag_given m)).
  Definition mgs_map (m : m_gs V T) : m_gs W U := MGS (mga_map (mgs_any m)) (hmap mgg_map (mgs_given m)).
  Definition mas_map (m : m_as V T) : m_as W U :=
    MAS (maa_map (mas_any m)) (mag_map (mas_sames m)) (hmap mag_map (mas_given m)).
  Definition tpm_map (m : tpm V T) : tpm W U := TPM (mas_map (tpm_any m)) (hmap mgs_map (tpm_given m)).

  Record ren {P M P' M'} (fP : P -> P') (fM : M -> M') (d : M) (d' : M') i i' g g' u u' a a' ua ua'
      (o : M -> M -> Prop) (o' : M' -> M' -> Prop) : Prop := {
    r_d : fM d = d';
    r_i : forall c (v : V) m, i' (fP c) (f v) (fM m) = both (X := bool) fM (i c v m);
    r_g : forall m (t : triple T), g' (fM m) (triple_map h t) = map f (g m t);
    r_u : forall m n, u' (fM m) (fM n) = fM (u m n);
    r_a : forall (n : nat) c v m, a' n (fP c) (f v) (fM m) = both (X := option bool) fM (a n c v m);
    r_ua : forall (n : nat) m m', ua' n (fM m) (fM m') = both (X := option nat) fM (ua n m m');
    r_o : forall m m' : M, o m m' -> o' (fM m) (fM m') : Prop
  }.

  Ltac ifs := repeat match goal with |- context [if ?b then _ else _] => destruct b end.
  Ltac ren_i :=
    let c := fresh in let v := fresh in let m := fresh in
    intros c v m; destruct m, c; unfold mga_map, mgg_map, maa_map, mag_map;
    cbn [mga_insert mgg_insert maa_insert mag_insert mga_insert_at mgg_insert_at maa_insert_at mag_insert_at
      tga_map tgg_map taa_map tag_map mga_any mga_samep mga_given mgg_any mgg_given maa_any maa_sames maa_samep maa_given
      mag_any mag_sames mag_given];
    first [ rewrite hs_insert_r | rewrite hs_insert_at_r
      | rewrite (hm_entry_r (map f) [] [] _ (hs_insert veqb v) _ _ eq_refl (hs_insert_r v))
      | rewrite (hm_entry_at_r (map f) _ [] [] _ (fun n => hs_insert_at veqb n v) _ _ eq_refl (fun n => hs_insert_at_r n v)) ];
    match goal with |- context [both _ ?e] => destruct e end;
    reflexivity.
  Ltac ren_a := let n := fresh in intros n; ren_i.
  Ltac ren_g :=
    let m := fresh in let t := fresh in
    intros m t; destruct m, t; unfold mga_get, mgg_get, maa_get, mag_get; cbn; rewrite ?he, ?map_app;
    rewrite ?(hm_values_r (map f) _ (fun s => s) (fun s => s) _ (fun a => eq_refl));
    ifs; reflexivity.
  Ltac ren_u :=
    let m := fresh in let n := fresh in
    intros m n; destruct m, n; unfold mga_union, mgg_union, maa_union, mag_union, mga_map, mgg_map, maa_map, mag_map;
    cbn [mga_any mga_samep mga_given mgg_any mgg_given maa_any maa_sames maa_samep maa_given mag_any mag_sames mag_given];
    rewrite ?hs_extend_r, ?hm_extend_r; reflexivity.
  Ltac ren_ua :=
    let n := fresh in let m := fresh in let o := fresh in
    intros n m o; destruct m, o;
    unfold mga_union_at, mgg_union_at, maa_union_at, mag_union_at, mga_map, mgg_map, maa_map, mag_map, then_at;
    cbn [mga_any mga_samep mga_given mgg_any mgg_given maa_any maa_sames maa_samep maa_given mag_any mag_sames mag_given];
    repeat first
      [ rewrite hs_extend_at_r;
        match goal with |- context [hs_extend_at veqb ?n ?s ?l] => destruct (hs_extend_at veqb n s l) as [[?|] ?] end
      | rewrite hm_extend_at_r;
        match goal with |- context [hm_extend_at teqb ?n ?s ?l] => destruct (hm_extend_at teqb n s l) as [[?|] ?] end
      | progress (unfold both at 1; cbn [fst snd]) ];
    reflexivity.
  Ltac ren_o :=
    let m := fresh in let n := fresh in let H := fresh in
    intros m n H; destruct m, n; unfold mga_order, mgg_order, maa_order, mag_order in *; cbn in *;
    repeat match goal with H : _ /\ _ |- _ => destruct H end;
    repeat match goal with |- _ /\ _ => split end;
    first [apply hs_order_r; assumption | eapply hm_order_r; [|eassumption]; intros; first [apply hs_order_r; assumption|eauto]].

  Lemma ren_ga : ren (tga_map h) mga_map mga_default mga_default (mga_insert veqb teqb) (mga_insert weqb ueqb)
    (mga_get teqb) (mga_get ueqb) (mga_union veqb teqb) (mga_union weqb ueqb)
    (mga_insert_at veqb teqb) (mga_insert_at weqb ueqb) (mga_union_at veqb teqb) (mga_union_at weqb ueqb)
    mga_order mga_order.
  Proof. split; [reflexivity|ren_i|ren_g|ren_u|ren_a|ren_ua|ren_o]. Qed.
  Lemma ren_gg : ren (tgg_map h) mgg_map mgg_default mgg_default (mgg_insert veqb teqb) (mgg_insert weqb ueqb)
    (mgg_get teqb) (mgg_get ueqb) (mgg_union veqb teqb) (mgg_union weqb ueqb)
    (mgg_insert_at veqb teqb) (mgg_insert_at weqb ueqb) (mgg_union_at veqb teqb) (mgg_union_at weqb ueqb)
    mgg_order mgg_order.
  Proof. split; [reflexivity|ren_i|ren_g|ren_u|ren_a|ren_ua|ren_o]. Qed.
  Lemma ren_aa : ren (taa_map h) maa_map maa_default maa_default (maa_insert veqb teqb) (maa_insert weqb ueqb)
    (maa_get teqb) (maa_get ueqb) (maa_union veqb teqb) (maa_union weqb ueqb)
    (maa_insert_at veqb teqb) (maa_insert_at weqb ueqb) (maa_union_at veqb teqb) (maa_union_at weqb ueqb)
    maa_order maa_order.
  Proof. split; [reflexivity|ren_i|ren_g|ren_u|ren_a|ren_ua|ren_o]. Qed.
  Lemma ren_ag : ren (tag_map h) mag_map mag_default mag_default (mag_insert veqb teqb) (mag_insert weqb ueqb)
    (mag_get teqb) (mag_get ueqb) (mag_union veqb teqb) (mag_union weqb ueqb)
    (mag_insert_at veqb teqb) (mag_insert_at weqb ueqb) (mag_union_at veqb teqb) (mag_union_at weqb ueqb)
    mag_order mag_order.
  Proof. split; [reflexivity|ren_i|ren_g|ren_u|ren_a|ren_ua|ren_o]. Qed.

  Lemma ren_gs : ren (tgs_map h) mgs_map mgs_default mgs_default (mgs_insert veqb teqb) (mgs_insert weqb ueqb)
    (mgs_get teqb) (mgs_get ueqb) (mgs_union veqb teqb) (mgs_union weqb ueqb)
    (mgs_insert_at veqb teqb) (mgs_insert_at weqb ueqb) (mgs_union_at veqb teqb) (mgs_union_at weqb ueqb)
    mgs_order mgs_order.
  Proof.
    destruct ren_ga as [_ Ai Ag Au Aa At Ao]. destruct ren_gg as [_ Bi Bg Bu Ba Bt Bo]. split.
    - reflexivity.
    - intros [r|k r] v [x y]; unfold mgs_map; cbn [mgs_insert mgs_any mgs_given tgs_map].
      + rewrite Ai. destruct (mga_insert veqb teqb r v x). reflexivity.
      + rewrite (hm_entry_r mgg_map mgg_default mgg_default _ _ _ _ eq_refl (Bi r v)). destruct (hm_entry teqb _ _ _ _). reflexivity.
    - intros [x y] t. unfold mgs_get, mgs_map. cbn [mgs_any mgs_given]. rewrite map_app, Ag. f_equal.
      change (t_p (triple_map h t)) with (h (t_p t)). apply hm_values_r. intros a. apply Bg.
    - intros [x y] [x' y']. unfold mgs_union, mgs_map. cbn [mgs_any mgs_given]. now rewrite Au, hm_extend_r.
    - intros n [r|k r] v [x y]; unfold mgs_map; cbn [mgs_insert_at mgs_any mgs_given tgs_map].
      + rewrite Aa. destruct (mga_insert_at veqb teqb n r v x). reflexivity.
      + rewrite (hm_entry_at_r mgg_map _ mgg_default mgg_default _ _ _ _ eq_refl (fun n => Ba n r v)). destruct (hm_entry_at teqb _ _ _ _ _). reflexivity.
    - intros n [x y] [x' y']. unfold mgs_union_at, mgs_map, then_at. cbn [mgs_any mgs_given]. rewrite At.
      destruct (mga_union_at veqb teqb n x x') as [[n'|] z]; unfold both at 1; cbn [fst snd]; [|reflexivity].
      rewrite hm_extend_at_r. destruct (hm_extend_at teqb n' y y'). reflexivity.
    - intros [x y] [x' y'] [H1 H2]. split; [apply Ao; exact H1|]. eapply hm_order_r; [exact Bo|exact H2].
  Qed.
  Lemma ren_as : ren (tas_map h) mas_map mas_default mas_default (mas_insert veqb teqb) (mas_insert weqb ueqb)
    (mas_get teqb) (mas_get ueqb) (mas_union veqb teqb) (mas_union weqb ueqb)
    (mas_insert_at veqb teqb) (mas_insert_at weqb ueqb) (mas_union_at veqb teqb) (mas_union_at weqb ueqb)
    mas_order mas_order.
  Proof.
    destruct ren_aa as [_ Ai Ag Au Aa At Ao]. destruct ren_ag as [_ Bi Bg Bu Ba Bt Bo]. split.
    - reflexivity.
    - intros [r|r|k r] v [x y z]; unfold mas_map; cbn [mas_insert mas_any mas_sames mas_given tas_map].
      + rewrite Ai. destruct (maa_insert veqb teqb r v x). reflexivity.
      + rewrite Bi. destruct (mag_insert veqb teqb r v y). reflexivity.
      + rewrite (hm_entry_r mag_map mag_default mag_default _ _ _ _ eq_refl (Bi r v)). destruct (hm_entry teqb _ _ _ _). reflexivity.
    - intros [x y z] t. unfold mas_get, mas_map. cbn [mas_any mas_sames mas_given]. rewrite !map_app, Ag. f_equal.
      change (t_p (triple_map h t)) with (h (t_p t)). change (t_s (triple_map h t)) with (h (t_s t)).
      rewrite he. f_equal; [|apply hm_values_r; intros a; apply Bg]. destruct (teqb (t_s t) (t_p t)); [apply Bg|reflexivity].
    - intros [x y z] [x' y' z']. unfold mas_union, mas_map. cbn [mas_any mas_sames mas_given].
      now rewrite Au, Bu, hm_extend_r.
    - intros n [r|r|k r] v [x y z]; unfold mas_map; cbn [mas_insert_at mas_any mas_sames mas_given tas_map].
      + rewrite Aa. destruct (maa_insert_at veqb teqb n r v x). reflexivity.
      + rewrite Ba. destruct (mag_insert_at veqb teqb n r v y). reflexivity.
      + rewrite (hm_entry_at_r mag_map _ mag_default mag_default _ _ _ _ eq_refl (fun n => Ba n r v)). destruct (hm_entry_at teqb _ _ _ _ _). reflexivity.
    - intros n [x y z] [x' y' z']. unfold mas_union_at, mas_map, then_at. cbn [mas_any mas_sames mas_given]. rewrite At.
      destruct (maa_union_at veqb teqb n x x') as [[n'|] x1]; unfold both at 1; cbn [fst snd]; [|reflexivity].
      rewrite Bt. destruct (mag_union_at veqb teqb n' y y') as [[n''|] y1]; unfold both at 1; cbn [fst snd]; [|reflexivity].
      rewrite hm_extend_at_r. destruct (hm_extend_at teqb n'' z z'). reflexivity.
    - intros [x y z] [x' y' z'] (H1 & H2 & H3). split; [apply Ao; exact H1|]. split; [apply Bo; exact H2|].
      eapply hm_order_r; [exact Bo|exact H3].
  Qed.
  Lemma tpm_insert_r c v m : tpm_insert weqb ueqb (ct_map h c) (f v) (tpm_map m) = both tpm_map (tpm_insert veqb teqb c v m).
  Proof.
    destruct ren_gs as [_ Ai Ag _ _ _ _]. destruct ren_as as [_ Bi Bg _ _ _ _].
    assert (E : ct_map h c = match c with CT_AnyS r => CT_AnyS (tas_map h r) | CT_GivenS k r => CT_GivenS (h k) (tgs_map h r) end)
      by (destruct c as [[]|? []]; reflexivity).
    rewrite E. destruct c as [r|k r], m as [x y]; unfold tpm_map; cbn [tpm_insert tpm_any tpm_given].
    - rewrite Bi. destruct (mas_insert veqb teqb r v x). reflexivity.
    - rewrite (hm_entry_r mgs_map mgs_default mgs_default _ _ _ _ eq_refl (Ai r v)). destruct (hm_entry teqb _ _ _ _). reflexivity.
  Qed.
  Lemma tpm_insert_at_r n c v m :
    tpm_insert_at weqb ueqb n (ct_map h c) (f v) (tpm_map m) = both tpm_map (tpm_insert_at veqb teqb n c v m).
  Proof.
    destruct ren_gs as [_ _ _ _ Ai _ _]. destruct ren_as as [_ _ _ _ Bi _ _].
    assert (E : ct_map h c = match c with CT_AnyS r => CT_AnyS (tas_map h r) | CT_GivenS k r => CT_GivenS (h k) (tgs_map h r) end)
      by (destruct c as [[]|? []]; reflexivity).
    rewrite E. destruct c as [r|k r], m as [x y]; unfold tpm_map; cbn [tpm_insert_at tpm_any tpm_given].
    - rewrite Bi. destruct (mas_insert_at veqb teqb n r v x). reflexivity.
    - rewrite (hm_entry_at_r mgs_map _ mgs_default mgs_default _ _ _ _ eq_refl (fun n => Ai n r v)). destruct (hm_entry_at teqb _ _ _ _ _). reflexivity.
  Qed.
  Lemma tpm_get_r m t : tpm_get ueqb (tpm_map m) (triple_map h t) = map f (tpm_get teqb m t).
  Proof.
    destruct ren_gs as [_ Ai Ag _ _ _ _]. destruct ren_as as [_ Bi Bg _ _ _ _].
    destruct m as [x y]. unfold tpm_get, tpm_map. cbn [tpm_any tpm_given]. rewrite map_app, Bg. f_equal.
    change (t_s (triple_map h t)) with (h (t_s t)). apply hm_values_r. intros a. apply Ag.
  Qed.

  Section Grown.
    Context {P M P' M' : Type} {fP : P -> P'} {fM : M -> M'} {d d' i i' g g' u u' a a' ua ua' o o'}
      (R : ren fP fM d d' i i' g g' u u' a a' ua ua' o o').
    Lemma grown_r e : grow d' i' u' (growth_map fP f e) = fM (grow d i u e).
    Proof.
      destruct R as [Rd Ri Rg Ru _ _ _]. induction e as [|e IH c v|x IX y IY]; cbn.
      - symmetry. exact Rd.
      - rewrite IH, Ri. reflexivity.
      - rewrite IX, IY. apply Ru.
    Qed.
    Lemma growth_renamed (e : growth P V) :
      (forall t, g' (grow d' i' u' (growth_map fP f e)) (triple_map h t) = map f (g (grow d i u e) t)) /\
      (forall c v, fst (i' (fP c) (f v) (grow d' i' u' (growth_map fP f e))) = fst (i c v (grow d i u e))).
    Proof.
      rewrite grown_r. destruct R as [Rd Ri Rg Ru _ _ _]. split; [intros t; apply Rg|].
      intros c v. rewrite Ri. reflexivity.
    Qed.
    Lemma trial_renamed (e : trial P V) m : tried d a u ua o e m ->
      exists m', tried d' a' u' ua' o' (trial_map fP f e) m' /\
        (forall t, g' m' (triple_map h t) = map f (g m t)) /\
        (forall c v, fst (i' (fP c) (f v) m') = fst (i c v m)) /\
        (forall n c v, fst (a' n (fP c) (f v) m') = fst (a n c v m)).
    Proof.
      intros H. exists (fM m). destruct R as [Rd Ri Rg Ru Ra Rt Ro]. split; [|split; [|split]].
      - induction H as [|n e c v m H IH|x y m k HX IX HY IY|n x y m k HX IX HY IY|e m m' H IH O]; cbn.
        + rewrite Rd. constructor.
        + replace (fM (snd (a n c v m))) with (snd (a' n (fP c) (f v) (fM m))) by (rewrite Ra; reflexivity).
          now constructor.
        + rewrite <- Ru. now constructor.
        + replace (fM (snd (ua n m k))) with (snd (ua' n (fM m) (fM k))) by (rewrite Rt; reflexivity).
          now constructor.
        + eapply tried_order; [exact IH|]. apply Ro. exact O.
      - intros t. apply Rg.
      - intros c v. rewrite Ri. reflexivity.
      - intros n c v. rewrite Ra. reflexivity.
    Qed.
  End Grown.

  Definition pmap {P P'} (fP : P -> P') (l : list (P * V)) : list (P' * W) := map (fun cv => (fP (fst cv), f (snd cv))) l.
  Lemma tpm_all_r l : forall m,
    insert_all (tpm_insert weqb ueqb) (pmap (ct_map h) l) (tpm_map m) =
    both tpm_map (insert_all (tpm_insert veqb teqb) l m).
  Proof.
    induction l as [|[c v] l IH]; intros m; cbn [insert_all pmap map fst snd]; [reflexivity|]. rewrite tpm_insert_r.
    destruct (tpm_insert veqb teqb c v m) as [b m1]. unfold both at 1. cbn [fst snd]. rewrite IH.
    destruct (insert_all (tpm_insert veqb teqb) l m1). reflexivity.
  Qed.
  Lemma tpm_renamed l :
    let m := insert_all (tpm_insert veqb teqb) l tpm_default in
    let m' := insert_all (tpm_insert weqb ueqb) (map (fun cv => (ct_map h (fst cv), f (snd cv))) l) tpm_default in
    fst m' = fst m /\ forall t, tpm_get ueqb (snd m') (triple_map h t) = map f (tpm_get teqb (snd m) t).
  Proof.
    intros m m'. pose proof (tpm_all_r l tpm_default) as E. change (tpm_map tpm_default) with (@tpm_default W U) in E.
    unfold pmap in E. fold m' m in E. rewrite E. split; [reflexivity|]. intros t. apply tpm_get_r.
  Qed.
  Lemma tpm_runs_r l : forall m,
    insert_runs (tpm_insert_at weqb ueqb) (map (fun x => (fst x, (ct_map h (fst (snd x)), f (snd (snd x))))) l) (tpm_map m) =
    both tpm_map (insert_runs (tpm_insert_at veqb teqb) l m).
  Proof.
    induction l as [|[n [c v]] l IH]; intros m; cbn [insert_runs map fst snd]; [reflexivity|]. rewrite tpm_insert_at_r.
    destruct (tpm_insert_at veqb teqb n c v m) as [b m1]. unfold both at 1. cbn [fst snd]. rewrite IH.
    destruct (insert_runs (tpm_insert_at veqb teqb) l m1). reflexivity.
  Qed.
  Lemma tpm_runs_renamed l :
    let m := insert_runs (tpm_insert_at veqb teqb) l tpm_default in
    let m' := insert_runs (tpm_insert_at weqb ueqb)
      (map (fun x => (fst x, (ct_map h (fst (snd x)), f (snd (snd x))))) l) tpm_default in
    fst m' = fst m /\ forall t, tpm_get ueqb (snd m') (triple_map h t) = map f (tpm_get teqb (snd m) t).
  Proof.
    intros m m'. pose proof (tpm_runs_r l tpm_default) as E. change (tpm_map tpm_default) with (@tpm_default W U) in E.
    fold m' m in E. rewrite E. split; [reflexivity|]. intros t. apply tpm_get_r.
  Qed.
End Renaming.

(** ** Classes of values *)
Section Classes.
  Context {V K T : Type} (veqb : V -> V -> bool) (teqb : T -> T -> bool) (kv : V -> K)
    (veqb_kv : forall x y, veqb x y = true <-> kv x = kv y)
    (teqb_spec : forall x y, teqb x y = true <-> x = y).

  Record glaws {P M} (mt : P -> triple T -> Prop) (d : M) (ins : P -> V -> M -> bool * M)
      (get : M -> triple T -> list V) (D : M -> P -> V -> Prop) (inv : M -> Prop) : Prop := {
    g_dinv : inv d;
    g_dempty : forall c v, ~ D d c v;
    g_inv : forall m c v, inv m -> inv (snd (ins c v m));
    g_new : forall m c v, inv m -> (fst (ins c v m) = true /\ ~ exists w, D m c w /\ kv w = kv v) \/
      (fst (ins c v m) = false /\ exists w, D m c w /\ kv w = kv v);
    g_D : forall m c v c' v', inv m ->
      (D (snd (ins c v m)) c' v' <-> D m c' v' \/ (c' = c /\ v' = v /\ ~ exists w, D m c w /\ kv w = kv v));
    g_get : forall m t, inv m -> yields (get m t) (fun c v => D m c v /\ mt c t)
  }.
  Definition invK (s : list V) : Prop := NoDup (map kv s).

  Lemma exists_kv v s : (existsb (veqb v) s = true /\ (exists w, In w s /\ kv w = kv v)) \/
    (existsb (veqb v) s = false /\ ~ (exists w, In w s /\ kv w = kv v)).
  Proof.
    assert (X : existsb (veqb v) s = true <-> exists w, In w s /\ kv w = kv v).
    { rewrite existsb_exists. split.
      - intros (w & A & B). apply veqb_kv in B. eauto.
      - intros (w & A & B). exists w. split; [exact A|]. apply veqb_kv. auto. }
    destruct (existsb (veqb v) s); [left|right]; (split; [reflexivity|]).
    - now apply X.
    - intros H. apply X in H. discriminate.
  Qed.

  Lemma glawsU : glaws (fun _ _ => True) [] (insU veqb) getU DU invK.
  Proof.
    split; unfold insU, hs_insert, DU, getU.
    - constructor.
    - intros _ v [].
    - intros s _ v N. destruct (exists_kv v s) as [[-> I]|[-> I]]; cbn; [exact N|]. unfold invK in *.
      rewrite map_app. apply NoDup_app_intro; [exact N|constructor; [intros []|constructor]|].
      intros x A [B|[]]. apply in_map_iff in A. destruct A as (w & E & A). apply I. exists w. split; [exact A|congruence].
    - intros s _ v N. destruct (exists_kv v s) as [[-> I]|[-> I]]; cbn; auto.
    - intros s [] v [] v' N. destruct (exists_kv v s) as [[-> I]|[-> I]]; cbn; [tauto|].
      rewrite in_app_iff. cbn. intuition.
    - intros s t N. eapply yields_ext; [apply yields_set; exact (NoDup_map_inv _ _ N)|]. cbn. tauto.
  Qed.

  Section HMap.
    Context {P M : Type} (mt : P -> triple T -> Prop) (d : M) (ins : P -> V -> M -> bool * M)
      (get : M -> triple T -> list V) (D : M -> P -> V -> Prop) (inv : M -> Prop)
      (L : glaws mt d ins get D inv) (sel : triple T -> T).

    Lemma glawsH :
      glaws (fun kc t => sel t = fst kc /\ mt (snd kc) t) []
        (fun kc v h => hm_entry teqb d (fst kc) (ins (snd kc) v) h)
        (fun h t => hm_values teqb (sel t) (fun a => get a t) h) (DH teqb D) (invH teqb inv).
    Proof.
      destruct L as [Ld Le Li Ln LD Lg].
      assert (A : forall k h, invH teqb inv h ->
        exists a, match hm_get teqb k h with Some a => a | None => d end = a /\ inv a /\
          forall c v, DH teqb D h (k, c) v <-> D a c v).
      { intros k h [_ H]. unfold DH. cbn. destruct (hm_get teqb k h) as [a|] eqn:E; eexists;
          (split; [reflexivity|]).
        - split; [exact (H _ _ E)|]. intros c v. split; [intros (b & F & G); congruence|eauto].
        - split; [exact Ld|]. intros c v. split; [intros (b & F & G); discriminate|].
          intros F. destruct (Le _ _ F). }
      assert (X : forall k h c v a, (forall c v, DH teqb D h (k, c) v <-> D a c v) ->
        (exists w, DH teqb D h (k, c) w /\ kv w = kv v) <-> (exists w, D a c w /\ kv w = kv v)).
      { intros k h c v a H. split; intros (w & F & G); exists w; (split; [apply H; exact F|exact G]). }
      split.
      - split; [constructor|]. intros k a E. discriminate.
      - intros c v (a & E & _). discriminate.
      - intros h [k c] v I. cbn [fst snd]. unfold hm_entry.
        destruct (A k h I) as (a & -> & J & _).
        specialize (Li a c v J). destruct (ins c v a) as [b a']. cbn in *.
        destruct I as [N I]. split; [apply hm_set_nodup; [exact teqb_spec|exact N]|].
        intros k' a''. rewrite (hm_get_set teqb teqb_spec). destruct (teqb k' k); intros E; [inv E; exact Li|eauto].
      - intros h [k c] v I. cbn [fst snd]. unfold hm_entry.
        destruct (A k h I) as (a & -> & J & K0). rewrite (X k h c v a K0).
        specialize (Ln a c v J). destruct (ins c v a). exact Ln.
      - intros h [k c] v [k' c'] v' I. unfold hm_entry. cbn [fst snd].
        destruct (A k h I) as (a & -> & J & K0). rewrite (X k h c v a K0).
        specialize (LD a c v c' v' J). destruct (ins c v a) as [b a']. cbn [snd] in *.
        unfold DH at 1. cbn [fst snd]. rewrite (hm_get_set teqb teqb_spec).
        destruct (teqb_cases teqb teqb_spec k' k) as [[-> E]|[-> E]].
        + subst k'. split.
          * intros (x & F & G). inv F. apply LD in G. rewrite <- K0 in G.
            destruct G as [G|(-> & -> & G)]; auto.
          * intros G. exists a'. split; [reflexivity|]. apply LD. rewrite <- K0.
            destruct G as [G|(G1 & -> & G)]; auto. inv G1. auto.
        + split; [auto|]. intros [G|[G _]]; [exact G|]. inv G. congruence.
      - intros h t I. unfold hm_values. destruct (hm_get teqb (sel t) h) as [a|] eqn:E.
        + destruct I as [_ I]. specialize (Lg a t (I _ _ E)).
          apply (yields_inj (fun c => (sel t, c))) in Lg; [|intros x y F; inv F; reflexivity].
          eapply yields_ext; [exact Lg|]. intros [k c] v. unfold DH. cbn [fst snd]. split.
          * intros (c' & F & G & H). inv F. eauto.
          * intros ((a' & F & G) & H & J). subst k. exists c. split; [reflexivity|].
            split; [congruence|exact J].
        + apply yields_nil. intros [k c] v ((a & F & G) & H & J). cbn in *. congruence.
    Qed.
  End HMap.

  Lemma glawsPlus {P1 P2 M1 M2} mt1 mt2 d1 d2 i1 i2 g1 g2 D1 D2 inv1 inv2 :
    @glaws P1 M1 mt1 d1 i1 g1 D1 inv1 -> @glaws P2 M2 mt2 d2 i2 g2 D2 inv2 ->
    glaws (sumP mt1 mt2) (d1, d2) (insS i1 i2) (fun m t => g1 (fst m) t ++ g2 (snd m) t)
      (fun m => sumP (D1 (fst m)) (D2 (snd m))) (fun m => inv1 (fst m) /\ inv2 (snd m)).
  Proof.
    intros [Ld Le Li Ln LD Lg] [Kd Ke Ki Kn KD Kg]. split.
    - auto.
    - intros [c|c] v; cbn; auto.
    - intros [m n] [c|c] v (A & B); cbn in *.
      + specialize (Li m c v A). destruct (i1 c v m); cbn in *; auto.
      + specialize (Ki n c v B). destruct (i2 c v n); cbn in *; auto.
    - intros [m n] [c|c] v (A & B); cbn in *.
      + specialize (Ln m c v A). destruct (i1 c v m); cbn in *; auto.
      + specialize (Kn n c v B). destruct (i2 c v n); cbn in *; auto.
    - intros [m n] [c|c] v [c'|c'] v' (A & B); cbn in *.
      + specialize (LD m c v c' v' A). destruct (i1 c v m); cbn in *. rewrite LD.
        intuition congruence.
      + destruct (i1 c v m); cbn in *. intuition congruence.
      + destruct (i2 c v n); cbn in *. intuition congruence.
      + specialize (KD n c v c' v' B). destruct (i2 c v n); cbn in *. rewrite KD.
        intuition congruence.
    - intros [m n] t (A & B). cbn in *. specialize (Lg m t A). specialize (Kg n t B).
      apply (yields_inj (@inl P1 P2)) in Lg; [|intros x y E; congruence].
      apply (yields_inj (@inr P1 P2)) in Kg; [|intros x y E; congruence].
      eapply yields_ext.
      { apply yields_app; [exact Lg|exact Kg|]. intros c v (x & -> & _) (y & E & _). discriminate. }
      intros [c|c] v; cbn.
      + split.
        * intros [(x & E & H)|(x & E & H)]; inv E. exact H.
        * intros H. left. eauto.
      + split.
        * intros [(x & E & H)|(x & E & H)]; inv E. exact H.
        * intros H. right. eauto.
  Qed.

  Lemma glawsIf {P M} mt d i g D inv (x y : triple T -> T) :
    @glaws P M mt d i g D inv ->
    glaws (fun c t => x t = y t /\ mt c t) d i
      (fun m t => if teqb (x t) (y t) then g m t else []) D inv.
  Proof.
    intros [Ld Le Li Ln LD Lg]. split; auto.
    intros m t I. eapply yields_ext; [apply (yields_if teqb teqb_spec); apply Lg; exact I|]. cbn. tauto.
  Qed.

  Lemma glawsIso {P M P' M'} mt d i g D inv (eP : P' -> P) (eP' : P -> P') (eM : M' -> M) mt' d' i' g' :
    @glaws P M mt d i g D inv ->
    (forall c, eP' (eP c) = c) -> (forall c, eP (eP' c) = c) ->
    eM d' = d ->
    (forall m c v, (fst (i' c v m), eM (snd (i' c v m))) = i (eP c) v (eM m)) ->
    (forall m t, g' m t = g (eM m) t) ->
    (forall c t, mt' c t <-> mt (eP c) t) ->
    @glaws P' M' mt' d' i' g' (fun m c v => D (eM m) (eP c) v) (fun m => inv (eM m)).
  Proof.
    intros [Ld Le Li Ln LD Lg] E1 E2 Ed Ei Eg Em.
    assert (Ei1 : forall m c v, fst (i' c v m) = fst (i (eP c) v (eM m))) by
      (intros m c v; rewrite <- Ei; reflexivity).
    assert (Ei2 : forall m c v, eM (snd (i' c v m)) = snd (i (eP c) v (eM m))) by
      (intros m c v; rewrite <- Ei; reflexivity).
    split.
    - rewrite Ed. exact Ld.
    - intros c v. rewrite Ed. apply Le.
    - intros m c v I. rewrite Ei2. auto.
    - intros m c v I. rewrite Ei1. auto.
    - intros m c v c' v' I. rewrite Ei2, LD by exact I. split; intros [H|[H1 H2]]; auto.
      + right. split; [|exact H2]. rewrite <- (E1 c'), H1. apply E1.
      + right. split; [congruence|exact H2].
    - intros m t I. rewrite Eg. specialize (Lg _ t I).
      apply (yields_inj eP') in Lg; [|intros x y E; rewrite <- (E2 x), E; apply E2].
      eapply yields_ext; [exact Lg|]. intros c v. cbn. rewrite Em. split.
      + intros (c' & -> & H). rewrite E2. exact H.
      + intros H. exists (eP c). rewrite E1. auto.
  Qed.

  Record gulaws {P M} (d : M) (ins : P -> V -> M -> bool * M) (un : M -> M -> M)
      (D : M -> P -> V -> Prop) (inv : M -> Prop)
      (S : M -> P -> Prop) (sk : P -> P -> Prop) : Prop := {
    gu_inv : forall m n, inv m -> inv n -> inv (un m n);
    gu_D : forall m n c v, inv m -> inv n ->
      (D (un m n) c v <-> (D m c v /\ ~ S n c) \/ (D n c v /\ (S n c \/ ~ exists w, D m c w /\ kv w = kv v)));
    gu_d : forall c, ~ S d c;
    gu_ins : forall m c v c', S (snd (ins c v m)) c' <-> S m c' \/ sk c c';
    gu_S : forall m n c, inv m -> inv n -> (S (un m n) c <-> S m c \/ S n c);
    gu_dec : forall m c, S m c \/ ~ S m c
  }.

  Lemma gulawsU : gulaws [] (insU veqb) (hs_extend veqb) DU invK (fun _ _ => False) (fun _ _ => False).
  Proof.
    assert (H : forall n m, invK m -> invK n -> invK (hs_extend veqb m n) /\
      forall v, In v (hs_extend veqb m n) <-> In v m \/ (In v n /\ ~ exists w, In w m /\ kv w = kv v)).
    { induction n as [|x n IH]; intros m N N'; cbn.
      - split; [exact N|]. tauto.
      - unfold invK in N'. cbn in N'. inversion N' as [|? ? N1 N2]; subst.
        destruct (IH (snd (hs_insert veqb x m))) as [A B]; [|exact N2|].
        { apply (g_inv _ _ _ _ _ _ glawsU m tt x N). }
        split; [exact A|]. intros v. unfold hs_extend in B. rewrite B. unfold hs_insert.
        destruct (exists_kv x m) as [[-> I]|[-> I]]; cbn.
        + split; [tauto|]. intros [F|[[<-|F] G]]; tauto.
        + rewrite in_app_iff. cbn. split.
          * intros [[F|[<-|[]]]|[F G]]; [tauto|tauto|]. right. split; [tauto|].
            intros (w & X & Y). apply G. exists w. rewrite in_app_iff. tauto.
          * intros [F|[[<-|F] G]]; [tauto|tauto|]. right. split; [exact F|].
            intros (w & X & Y). apply in_app_or in X. destruct X as [X|[<-|[]]]; [eauto|].
            apply N1. rewrite Y. now apply in_map. }
    split; try tauto.
    - intros m n A B. apply H; assumption.
    - intros m n c v A B. unfold DU. rewrite (proj2 (H n m A B)). tauto.
  Qed.

  Lemma gulawsH {P M} mt d ins get D inv (L : @glaws P M mt d ins get D inv) :
    gulaws [] (fun kc v h => hm_entry teqb d (fst kc) (ins (snd kc) v) h) (hm_extend teqb)
      (DH teqb D) (invH teqb inv) (fun h kc => hm_get teqb (fst kc) h <> None)
      (fun kc kc' => fst kc = fst kc').
  Proof.
    split.
    - intros m n [N1 I1] [N2 I2]. destruct (hm_extend_spec teqb teqb_spec n m N1 N2) as [A B]. split; [exact A|].
      intros k a. rewrite B. destruct (hm_get teqb k n) eqn:E; [|eauto].
      intros F. inv F. eauto.
    - intros m n [k c] v [N1 I1] [N2 I2]. destruct (hm_extend_spec teqb teqb_spec n m N1 N2) as [A B].
      unfold DH. cbn. rewrite B. destruct (hm_get teqb k n) as [a|] eqn:E.
      + split.
        * intros (b & F & G). inv F. right. split; [eauto|]. left. discriminate.
        * intros [(_ & G)|(G & _)]; [exfalso; apply G; discriminate|exact G].
      + split; [intros G; left; split; [exact G|congruence]|].
        intros [(G & _)|((b & F & _) & _)]; [exact G|discriminate].
    - intros c H. apply H. reflexivity.
    - intros m [k c] v [k' c']. unfold hm_entry. cbn [fst snd].
      destruct (ins c v match hm_get teqb k m with Some a => a | None => d end) as [b a].
      cbn [snd]. rewrite (hm_get_set teqb teqb_spec). destruct (teqb_cases teqb teqb_spec k' k) as [[-> E]|[-> E]].
      + split; [auto|discriminate].
      + split; [auto|]. intros [H|H]; [exact H|congruence].
    - intros m n [k c] [N1 I1] [N2 I2]. cbn. rewrite (proj2 (hm_extend_spec teqb teqb_spec n m N1 N2)).
      destruct (hm_get teqb k n); [split; [right|]; discriminate|]. tauto.
    - intros m [k c]. cbn. destruct (hm_get teqb k m); [left; discriminate|]. right. intros H. auto.
  Qed.

  Lemma gulawsPlus {P1 P2 M1 M2} d1 d2 i1 i2 u1 u2 D1 D2 inv1 inv2 S1 S2 k1 k2 :
    @gulaws P1 M1 d1 i1 u1 D1 inv1 S1 k1 -> @gulaws P2 M2 d2 i2 u2 D2 inv2 S2 k2 ->
    gulaws (d1, d2) (insS i1 i2) (fun m n => (u1 (fst m) (fst n), u2 (snd m) (snd n)))
      (fun m => sumP (D1 (fst m)) (D2 (snd m))) (fun m => inv1 (fst m) /\ inv2 (snd m))
      (fun m => sumP (S1 (fst m)) (S2 (snd m)))
      (fun c c' => match c, c' with inl c, inl c' => k1 c c' | inr c, inr c' => k2 c c' | _, _ => False end).
  Proof.
    intros [Li LD Ld Ln LS Lc] [Ki KD Kd Kn KS Kc]. split.
    - intros m n (A & B) (C & D). cbn. auto.
    - intros m n [c|c] v (A & B) (C & D); cbn; auto.
    - intros [c|c]; cbn; auto.
    - intros [m n] [c|c] v [c'|c']; cbn.
      + specialize (Ln m c v c'). destruct (i1 c v m); cbn in *. exact Ln.
      + destruct (i1 c v m); cbn in *. tauto.
      + destruct (i2 c v n); cbn in *. tauto.
      + specialize (Kn n c v c'). destruct (i2 c v n); cbn in *. exact Kn.
    - intros m n [c|c] (A & B) (C & D); cbn; auto.
    - intros m [c|c]; cbn; auto.
  Qed.

  Lemma gulawsIso {P M P' M'} d i u D inv S sk (eP : P' -> P) (eM : M' -> M) d' i' u' sk' :
    @gulaws P M d i u D inv S sk ->
    eM d' = d ->
    (forall m c v, (fst (i' c v m), eM (snd (i' c v m))) = i (eP c) v (eM m)) ->
    (forall m n, eM (u' m n) = u (eM m) (eM n)) ->
    (forall c c', sk' c c' <-> sk (eP c) (eP c')) ->
    @gulaws P' M' d' i' u' (fun m c v => D (eM m) (eP c) v) (fun m => inv (eM m))
      (fun m c => S (eM m) (eP c)) sk'.
  Proof.
    intros [Li LD Ld Ln LS Lc] Ed Ei Eu Ek. split.
    - intros m n A B. rewrite Eu. auto.
    - intros m n c v A B. rewrite Eu. auto.
    - intros c. rewrite Ed. apply Ld.
    - intros m c v c'. rewrite Ek, <- (Ln (eM m) (eP c) v (eP c')), <- Ei. reflexivity.
    - intros m n c A B. rewrite Eu. auto.
    - intros m c. apply Lc.
  Qed.

  Lemma glawsO : glaws (fun k t => t_o t = k) [] (insO veqb teqb)
    (fun h t => hm_values teqb (t_o t) (fun s => s) h)
    (fun h k v => DH teqb DU h (k, tt) v) (invH teqb invK).
  Proof.
    refine (glawsIso _ _ _ _ _ _ (fun k => (k, tt)) fst (fun h => h) _ _ _ _
      (glawsH _ _ _ _ _ _ glawsU t_o) _ _ _ _ _ _).
    - reflexivity.
    - intros [c []]. reflexivity.
    - reflexivity.
    - intros m c v. unfold insO, insU, hm_entry. cbn.
      destruct (hs_insert veqb v match hm_get teqb c m with Some a => a | None => [] end); reflexivity.
    - reflexivity.
    - cbn. tauto.
  Qed.
  Lemma gulawsO : gulaws [] (insO veqb teqb) (hm_extend teqb) (fun h k v => DH teqb DU h (k, tt) v) (invH teqb invK)
    (fun h k => hm_get teqb k h <> None) (fun k k' => k = k').
  Proof.
    refine (gulawsIso _ _ _ _ _ _ _ (fun k => (k, tt)) (fun h => h) _ _ _ _
      (gulawsH _ _ _ _ _ _ glawsU) _ _ _ _).
    - reflexivity.
    - intros m c v. unfold insO, insU, hm_entry. cbn.
      destruct (hs_insert veqb v match hm_get teqb c m with Some a => a | None => [] end); reflexivity.
    - reflexivity.
    - cbn. tauto.
  Qed.

  Ltac iso :=
    repeat match goal with
    | |- forall _, _ => intro
    | c : (_ + _)%type |- _ => destruct c
    | c : unit |- _ => destruct c
    | c : (_ * _)%type |- _ => destruct c
    end.

  Ltac ins_eq :=
    let m := fresh in let c := fresh in let v := fresh in
    intros m c v; destruct m, c; unfold insS, insU, insO; cbn;
    repeat match goal with
    | |- context [let (_, _) := ?e in _] => destruct e; cbn
    end; reflexivity.
  Ltac isos :=
    lazymatch goal with
    | |- forall c, _ = _ => solve [intros []; reflexivity | iso; reflexivity | intros [] []; reflexivity | ins_eq]
    | |- forall c, _ <-> _ => solve [intros [] t; cbn; intuition congruence]
    | |- _ => first [reflexivity | ins_eq | intros [] ?; reflexivity | intros [] []; reflexivity
                    | intros [] ?; cbn; intuition congruence
                    | intros [] []; cbn; intuition congruence]
    end.

  Lemma claws_ga : exists D inv S,
    glaws (fun c t => tga_m c (t_p t) (t_o t)) mga_default (mga_insert veqb teqb) (mga_get teqb) D inv /\
    gulaws mga_default (mga_insert veqb teqb) (mga_union veqb teqb) D inv S same_key_ga.
  Proof.
    eexists. eexists. eexists. split.
    - refine (glawsIso _ _ _ _ _ _ eP_ga dP_ga eM_ga _ _ _ _
        (glawsPlus _ _ _ _ _ _ _ _ _ _ _ _ glawsU
        (glawsPlus _ _ _ _ _ _ _ _ _ _ _ _ (glawsIf _ _ _ _ _ _ t_p t_o glawsU)
        glawsO)) _ _ _ _ _ _); isos.
    - refine (gulawsIso _ _ _ _ _ _ _ eP_ga eM_ga _ _ _ _
        (gulawsPlus _ _ _ _ _ _ _ _ _ _ _ _ _ _ gulawsU
        (gulawsPlus _ _ _ _ _ _ _ _ _ _ _ _ _ _ gulawsU
        gulawsO)) _ _ _ _); isos.
  Qed.

  Lemma claws_gg : exists D inv S,
    glaws (fun c t => tgg_m c (t_o t)) mgg_default (mgg_insert veqb teqb) (mgg_get teqb) D inv /\
    gulaws mgg_default (mgg_insert veqb teqb) (mgg_union veqb teqb) D inv S same_key_gg.
  Proof.
    eexists. eexists. eexists. split.
    - refine (glawsIso _ _ _ _ _ _ eP_gg dP_gg eM_gg _ _ _ _
        (glawsPlus _ _ _ _ _ _ _ _ _ _ _ _ glawsU
        glawsO) _ _ _ _ _ _); isos.
    - refine (gulawsIso _ _ _ _ _ _ _ eP_gg eM_gg _ _ _ _
        (gulawsPlus _ _ _ _ _ _ _ _ _ _ _ _ _ _ gulawsU
        gulawsO) _ _ _ _); isos.
  Qed.

  Lemma claws_aa : exists D inv S,
    glaws (fun c t => taa_m c (t_s t) (t_p t) (t_o t)) maa_default (maa_insert veqb teqb) (maa_get teqb) D inv /\
    gulaws maa_default (maa_insert veqb teqb) (maa_union veqb teqb) D inv S same_key_aa.
  Proof.
    eexists. eexists. eexists. split.
    - refine (glawsIso _ _ _ _ _ _ eP_aa dP_aa eM_aa _ _ _ _
        (glawsPlus _ _ _ _ _ _ _ _ _ _ _ _ glawsU
        (glawsPlus _ _ _ _ _ _ _ _ _ _ _ _ (glawsIf _ _ _ _ _ _ t_s t_o glawsU)
        (glawsPlus _ _ _ _ _ _ _ _ _ _ _ _ (glawsIf _ _ _ _ _ _ t_p t_o glawsU)
        glawsO))) _ _ _ _ _ _); isos.
    - refine (gulawsIso _ _ _ _ _ _ _ eP_aa eM_aa _ _ _ _
        (gulawsPlus _ _ _ _ _ _ _ _ _ _ _ _ _ _ gulawsU
        (gulawsPlus _ _ _ _ _ _ _ _ _ _ _ _ _ _ gulawsU
        (gulawsPlus _ _ _ _ _ _ _ _ _ _ _ _ _ _ gulawsU
        gulawsO))) _ _ _ _); isos.
  Qed.

  Lemma claws_ag : exists D inv S,
    glaws (fun c t => tag_m c (t_s t) (t_o t)) mag_default (mag_insert veqb teqb) (mag_get teqb) D inv /\
    gulaws mag_default (mag_insert veqb teqb) (mag_union veqb teqb) D inv S same_key_ag.
  Proof.
    eexists. eexists. eexists. split.
    - refine (glawsIso _ _ _ _ _ _ eP_ag dP_ag eM_ag _ _ _ _
        (glawsPlus _ _ _ _ _ _ _ _ _ _ _ _ glawsU
        (glawsPlus _ _ _ _ _ _ _ _ _ _ _ _ (glawsIf _ _ _ _ _ _ t_s t_o glawsU)
        glawsO)) _ _ _ _ _ _); isos.
    - refine (gulawsIso _ _ _ _ _ _ _ eP_ag eM_ag _ _ _ _
        (gulawsPlus _ _ _ _ _ _ _ _ _ _ _ _ _ _ gulawsU
        (gulawsPlus _ _ _ _ _ _ _ _ _ _ _ _ _ _ gulawsU
        gulawsO)) _ _ _ _); isos.
  Qed.

  Lemma claws_gs : exists D inv S,
    glaws (fun c t => tgs_m c (t_p t) (t_o t)) mgs_default (mgs_insert veqb teqb) (mgs_get teqb) D inv /\
    gulaws mgs_default (mgs_insert veqb teqb) (mgs_union veqb teqb) D inv S same_key_gs.
  Proof.
    destruct claws_ga as (Dga & Iga & Sga & Lga & Uga).
    destruct claws_gg as (Dgg & Igg & Sgg & Lgg & Ugg).
    eexists. eexists. eexists. split.
    - refine (glawsIso _ _ _ _ _ _ eP_gs dP_gs eM_gs _ _ _ _
        (glawsPlus _ _ _ _ _ _ _ _ _ _ _ _ Lga
        (glawsH _ _ _ _ _ _ Lgg t_p)) _ _ _ _ _ _); isos.
    - refine (gulawsIso _ _ _ _ _ _ _ eP_gs eM_gs _ _ _ _
        (gulawsPlus _ _ _ _ _ _ _ _ _ _ _ _ _ _ Uga
        (gulawsH _ _ _ _ _ _ Lgg)) _ _ _ _); isos.
  Qed.

  Lemma claws_as : exists D inv S,
    glaws (fun c t => tas_m c (t_s t) (t_p t) (t_o t)) mas_default (mas_insert veqb teqb) (mas_get teqb) D inv /\
    gulaws mas_default (mas_insert veqb teqb) (mas_union veqb teqb) D inv S same_key_as.
  Proof.
    destruct claws_aa as (Daa & Iaa & Saa & Laa & Uaa).
    destruct claws_ag as (Dag & Iag & Sag & Lag & Uag).
    eexists. eexists. eexists. split.
    - refine (glawsIso _ _ _ _ _ _ eP_as dP_as eM_as _ _ _ _
        (glawsPlus _ _ _ _ _ _ _ _ _ _ _ _ Laa
        (glawsPlus _ _ _ _ _ _ _ _ _ _ _ _ (glawsIf _ _ _ _ _ _ t_s t_p Lag)
        (glawsH _ _ _ _ _ _ Lag t_p))) _ _ _ _ _ _); isos.
    - refine (gulawsIso _ _ _ _ _ _ _ eP_as eM_as _ _ _ _
        (gulawsPlus _ _ _ _ _ _ _ _ _ _ _ _ _ _ Uaa
        (gulawsPlus _ _ _ _ _ _ _ _ _ _ _ _ _ _ Uag
        (gulawsH _ _ _ _ _ _ Lag))) _ _ _ _); isos.
  Qed.

  Lemma claws_tp : exists D inv,
    glaws (fun c t => ct_matches c t) tpm_default (tpm_insert veqb teqb) (tpm_get teqb) D inv.
  Proof.
    destruct claws_as as (Das & Ias & Sas & Las & Uas).
    destruct claws_gs as (Dgs & Igs & Sgs & Lgs & Ugs).
    eexists. eexists.
    refine (glawsIso _ _ _ _ _ _ eP_tp dP_tp eM_tp _ _ _ _
        (glawsPlus _ _ _ _ _ _ _ _ _ _ _ _ Las
        (glawsH _ _ _ _ _ _ Lgs t_s)) _ _ _ _ _ _); isos.
  Qed.

  (** ** Histories *)
  Section Growth.
    Context {P M : Type} {mt : P -> triple T -> Prop} {d : M} {i : P -> V -> M -> bool * M}
      {g : M -> triple T -> list V} {D : M -> P -> V -> Prop} {inv : M -> Prop} {u : M -> M -> M}
      {S : M -> P -> Prop} {sk : P -> P -> Prop}.
    Context (L : glaws mt d i g D inv) (U : gulaws d i u D inv S sk)
      (trans : forall x y z, sk x y -> sk y z -> sk x z) (refl : forall x y, sk x y -> sk x x).

    Lemma growth_reps e : inv (grow d i u e) /\ (forall c v, D (grow d i u e) c v <-> reps kv sk e c v) /\
      (forall c, S (grow d i u e) c <-> exists c' v, reps kv sk e c' v /\ sk c' c).
    Proof.
      induction e as [|e IH c v|a [IA [DA SA]] b [IB [DB SB]]]; cbn.
      - split; [exact (g_dinv _ _ _ _ _ _ L)|]. split.
        + intros c v. pose proof (g_dempty _ _ _ _ _ _ L c v). tauto.
        + intros c. pose proof (gu_d _ _ _ _ _ _ _ U c). split; [tauto|]. intros (c' & v & [] & _).
      - destruct IH as (I & E & F). split; [exact (g_inv _ _ _ _ _ _ L _ _ _ I)|].
        assert (X : forall c v, (exists w, D (grow d i u e) c w /\ kv w = kv v) <->
          (exists w, reps kv sk e c w /\ kv w = kv v)).
        { intros x w. split; intros (y & A & B); exists y; (split; [apply E; exact A|exact B]). }
        split.
        + intros c' v'. rewrite (g_D _ _ _ _ _ _ L) by exact I. rewrite E, X. split.
          * intros [A|(-> & -> & A)]; tauto.
          * intros [A|(-> & -> & A)]; tauto.
        + intros c'. rewrite (gu_ins _ _ _ _ _ _ _ U), F. split.
          * intros [(x & w & A & B)|H]; [exists x, w; tauto|].
            pose proof (g_new _ _ _ _ _ _ L (grow d i u e) c v I) as N.
            rewrite X in N. destruct N as [[_ N]|[_ (w & A & B)]].
            -- exists c, v. split; [|exact H]. right. tauto.
            -- exists c, w. tauto.
          * intros (x & w & [A|(-> & -> & A)] & B); [|now right]. left. now exists x, w.
      - split; [exact (gu_inv _ _ _ _ _ _ _ U _ _ IA IB)|].
        assert (X : forall c v, (exists w, D (grow d i u a) c w /\ kv w = kv v) <->
          (exists w, reps kv sk a c w /\ kv w = kv v)).
        { intros x w. split; intros (y & A & B); exists y; (split; [apply DA; exact A|exact B]). }
        split.
        + intros c v. rewrite (gu_D _ _ _ _ _ _ _ U) by assumption. rewrite X, DA, DB, SB. tauto.
        + intros c. rewrite (gu_S _ _ _ _ _ _ _ U) by assumption. rewrite SA, SB. split.
          * intros [(x & w & A & B)|(x & w & A & B)].
            -- destruct (gu_dec _ _ _ _ _ _ _ U (grow d i u b) x) as [Q|Q]; rewrite SB in Q.
               ++ destruct Q as (y & z & C & E). exists y, z. split; [|exact (trans _ _ _ E B)].
                  right. split; [exact C|]. left. exists y, z. split; [exact C|]. exact (refl _ _ E).
               ++ exists x, w. tauto.
            -- exists x, w. split; [|exact B]. right. split; [exact A|]. left. exists x, w. split; [exact A|]. exact (refl _ _ B).
          * intros (x & w & [[A _]|[A _]] & B); [left|right]; now exists x, w.
    Qed.

    Lemma growth_exact e t : answers (g (grow d i u e) t) (fun c v => reps kv sk e c v /\ mt c t).
    Proof.
      destruct (growth_reps e) as (I & E & _). apply yields_answers.
      eapply yields_ext; [apply (g_get _ _ _ _ _ _ L); exact I|]. intros c v. cbn. now rewrite E.
    Qed.
    Lemma growth_accepts e c v :
      fst (i c v (grow d i u e)) = true <-> ~ exists w, reps kv sk e c w /\ kv w = kv v.
    Proof.
      destruct (growth_reps e) as (I & E & _). destruct (g_new _ _ _ _ _ _ L _ c v I) as [[-> N]|[-> (w & A & B)]].
      - split; [|reflexivity]. intros _ (w & A & B). apply N. exists w. split; [apply E; exact A|exact B].
      - split; [discriminate|]. intros N. destruct N. exists w. split; [apply E; exact A|exact B].
    Qed.
  End Growth.

  Lemma firsts {P M} mt d i g D inv (L : @glaws P M mt d i g D inv) (l : list (P * V)) :
    inv (snd (insert_all i l d)) /\ (forall c v, D (snd (insert_all i l d)) c v <-> first_of kv l c v) /\
    (forall c v, In (c, v) l -> exists w, D (snd (insert_all i l d)) c w /\ kv w = kv v).
  Proof.
    assert (A : forall l m, snd (insert_all i l m) = fold_left (fun m cv => snd (i (fst cv) (snd cv) m)) l m).
    { clear. induction l as [|[c v] l IH]; intros m; cbn; [reflexivity|]. destruct (i c v m) as [b m1].
      specialize (IH m1). destruct (insert_all i l m1). exact IH. }
    rewrite A. clear A. induction l as [|[c v] l [I [E F0]]] using rev_ind; cbn.
    - split; [exact (g_dinv _ _ _ _ _ _ L)|]. split; [|intros c v []]. intros c v. split.
      + intros H. destruct (g_dempty _ _ _ _ _ _ L _ _ H).
      + intros ([|x l1] & l2 & F & _); discriminate.
    - rewrite fold_left_app. cbn. split; [exact (g_inv _ _ _ _ _ _ L _ _ _ I)|].
      split; [|intros c' v' H; apply in_app_or in H; destruct H as [H|[H|[]]];
        [destruct (F0 c' v' H) as (w & X & Y); exists w; (split; [|exact Y]); apply (g_D _ _ _ _ _ _ L); auto|];
        inversion H; subst c' v'; destruct (g_new _ _ _ _ _ _ L _ c v I) as [[_ N]|[_ (w & X & Y)]];
        [exists v; (split; [|reflexivity]); apply (g_D _ _ _ _ _ _ L); auto
        |exists w; (split; [|exact Y]); apply (g_D _ _ _ _ _ _ L); auto]].
      intros c' v'. rewrite (g_D _ _ _ _ _ _ L) by exact I. rewrite E. split.
      + intros [(l1 & l2 & -> & N)|(-> & -> & N)].
        * exists l1, (l2 ++ [(c, v)]). split; [now rewrite <- app_assoc|exact N].
        * exists l, []. split; [reflexivity|]. intros (w & X & Y). apply N.
          destruct (F0 c w X) as (y & Z1 & Z2). exists y. split; [exact Z1|congruence].
      + intros (l1 & l2 & F & N). destruct l2 as [|x l2 _] using rev_ind.
        * apply app_inj_tail in F. destruct F as [-> F]. inversion F; subst c' v'. right.
          split; [reflexivity|]. split; [reflexivity|]. intros (w & X & Y). apply N. apply E in X.
          destruct X as (k1 & k2 & -> & _). exists w. split; [|exact Y]. apply in_or_app. right. now left.
        * left. rewrite app_comm_cons, app_assoc in F. apply app_inj_tail in F. destruct F as [-> _].
          exists l1, l2. auto.
  Qed.
End Classes.

Lemma kv_spec {V K} (veqb : V -> V -> bool) (kv : V -> K) (cv : K -> K -> bool) :
  (forall x y, cv x y = true <-> x = y) -> (forall x y, veqb x y = cv (kv x) (kv y)) ->
  forall x y, veqb x y = true <-> kv x = kv y.
Proof. intros A B x y. rewrite B. apply A. Qed.
Lemma reps_origin {P P' V K} (kv : V -> K) (sk : P' -> P' -> Prop) (fP : P -> P') (e : growth P V) c v :
  reps kv sk (growth_map fP (fun v => v) e) c v -> exists c0, c = fP c0 /\ inserted e c0 v.
Proof.
  revert c v. induction e as [|e IH c' v'|a IA b IB]; cbn; intros c v.
  - intros [].
  - intros [H|(-> & -> & _)]; [destruct (IH _ _ H) as (c0 & -> & A); eauto|eauto].
  - intros [[H _]|[H _]]; [destruct (IA _ _ H) as (c0 & -> & A)|destruct (IB _ _ H) as (c0 & -> & A)]; eauto.
Qed.
Lemma answers_in {P V} (l : list V) (Q : P -> V -> Prop) : answers l Q -> forall v, In v l -> exists c, Q c v.
Proof.
  intros (cl & N & H & E) v I. apply (Permutation_in _ E), in_map_iff in I. destruct I as ([c w] & <- & I). exists c. now apply H.
Qed.
Lemma ga_sk_refl {T} (x y : t_ga T) : same_key_ga x y -> same_key_ga x x.
Proof. destruct x, y; cbn; tauto. Qed.
Lemma gg_sk_refl {T} (x y : t_gg T) : same_key_gg x y -> same_key_gg x x.
Proof. destruct x, y; cbn; tauto. Qed.
Lemma aa_sk_refl {T} (x y : t_aa T) : same_key_aa x y -> same_key_aa x x.
Proof. destruct x, y; cbn; tauto. Qed.
Lemma ag_sk_refl {T} (x y : t_ag T) : same_key_ag x y -> same_key_ag x x.
Proof. destruct x, y; cbn; tauto. Qed.
Lemma gs_sk_refl {T} (x y : t_gs T) : same_key_gs x y -> same_key_gs x x.
Proof. destruct x, y; cbn; try tauto; apply ga_sk_refl. Qed.
Lemma as_sk_refl {T} (x y : t_as T) : same_key_as x y -> same_key_as x x.
Proof. destruct x, y; cbn; try tauto; first [apply aa_sk_refl|apply ag_sk_refl]. Qed.

Lemma ga_class_exact : forall V T K KT (veqb : V -> V -> bool) (teqb : T -> T -> bool)
    (kv : V -> K) (kt : T -> KT) (cv : K -> K -> bool) (ck : KT -> KT -> bool),
  (forall x y, cv x y = true <-> x = y) -> (forall x y, ck x y = true <-> x = y) ->
  (forall x y, veqb x y = cv (kv x) (kv y)) -> (forall x y, teqb x y = ck (kt x) (kt y)) ->
  forall (e : growth (t_ga T) V) (t : triple T),
  answers (mga_get teqb (grow mga_default (mga_insert veqb teqb) (mga_union veqb teqb) e) t)
    (fun c v => reps kv same_key_ga (growth_map (tga_map kt) (fun v => v) e) c v /\ tga_m c (kt (t_p t)) (kt (t_o t))).
Proof.
  intros V T K KT veqb teqb kv kt cv ck CV CK EV ET e t.
  destruct (growth_renamed (fun v => v) kt (ren_ga veqb veqb teqb ck (fun v => v) kt (fun x y => eq_refl) (fun x y => eq_sym (ET x y))) e) as [G _].
  specialize (G t). rewrite map_id in G. rewrite <- G.
  destruct (claws_ga veqb ck kv (kv_spec veqb kv cv CV EV) CK) as (D & I & S & L & U).
  exact (growth_exact kv L U ga_sk_trans ga_sk_refl (growth_map (tga_map kt) (fun v => v) e) (triple_map kt t)).
Qed.
Lemma ga_class_insert : forall V T K KT (veqb : V -> V -> bool) (teqb : T -> T -> bool)
    (kv : V -> K) (kt : T -> KT) (cv : K -> K -> bool) (ck : KT -> KT -> bool),
  (forall x y, cv x y = true <-> x = y) -> (forall x y, ck x y = true <-> x = y) ->
  (forall x y, veqb x y = cv (kv x) (kv y)) -> (forall x y, teqb x y = ck (kt x) (kt y)) ->
  forall (e : growth (t_ga T) V) c v,
  fst (mga_insert veqb teqb c v (grow mga_default (mga_insert veqb teqb) (mga_union veqb teqb) e)) = true <->
    ~ exists w, reps kv same_key_ga (growth_map (tga_map kt) (fun v => v) e) (tga_map kt c) w /\ kv w = kv v.
Proof.
  intros V T K KT veqb teqb kv kt cv ck CV CK EV ET e c v.
  destruct (growth_renamed (fun v => v) kt (ren_ga veqb veqb teqb ck (fun v => v) kt (fun x y => eq_refl) (fun x y => eq_sym (ET x y))) e) as [_ G].
  rewrite <- G.
  destruct (claws_ga veqb ck kv (kv_spec veqb kv cv CV EV) CK) as (D & I & S & L & U).
  exact (growth_accepts kv L U ga_sk_trans ga_sk_refl (growth_map (tga_map kt) (fun v => v) e) (tga_map kt c) v).
Qed.
Lemma ga_class_origin : forall V T K KT (veqb : V -> V -> bool) (teqb : T -> T -> bool)
    (kv : V -> K) (kt : T -> KT) (cv : K -> K -> bool) (ck : KT -> KT -> bool),
  (forall x y, cv x y = true <-> x = y) -> (forall x y, ck x y = true <-> x = y) ->
  (forall x y, veqb x y = cv (kv x) (kv y)) -> (forall x y, teqb x y = ck (kt x) (kt y)) ->
  forall (e : growth (t_ga T) V) (t : triple T) v,
  In v (mga_get teqb (grow mga_default (mga_insert veqb teqb) (mga_union veqb teqb) e) t) ->
    exists c0, inserted e c0 v /\ let c := tga_map kt c0 in tga_m c (kt (t_p t)) (kt (t_o t)).
Proof.
  intros V T K KT veqb teqb kv kt cv ck CV CK EV ET e t v H.
  pose proof (ga_class_exact V T K KT veqb teqb kv kt cv ck CV CK EV ET e t) as A.
  destruct (answers_in _ _ A v H) as (c & R & M). apply reps_origin in R. destruct R as (c0 & -> & R). exists c0. auto.
Qed.
Lemma ga_class_classes : forall V T K KT (veqb : V -> V -> bool) (teqb : T -> T -> bool)
    (kv : V -> K) (kt : T -> KT) (cv : K -> K -> bool) (ck : KT -> KT -> bool),
  (forall x y, cv x y = true <-> x = y) -> (forall x y, ck x y = true <-> x = y) ->
  (forall x y, veqb x y = cv (kv x) (kv y)) -> (forall x y, teqb x y = ck (kt x) (kt y)) ->
  forall (e : growth (t_ga T) V) (t : triple T),
  answers (map kv (mga_get teqb (grow mga_default (mga_insert veqb teqb) (mga_union veqb teqb) e) t))
    (fun c v => kept same_key_ga (growth_map (tga_map kt) kv e) c v /\ tga_m c (kt (t_p t)) (kt (t_o t))).
Proof.
  intros V T K KT veqb teqb kv kt cv ck CV CK EV ET e t.
  destruct (growth_renamed kv kt (ren_ga veqb cv teqb ck kv kt (fun x y => eq_sym (EV x y)) (fun x y => eq_sym (ET x y))) e) as [G _].
  rewrite <- G.
  exact (ga_growth_get K KT cv ck CV CK (growth_map (tga_map kt) kv e) (triple_map kt t)).
Qed.
Lemma ga_class_renamed : forall V W T U (veqb : V -> V -> bool) (weqb : W -> W -> bool) (teqb : T -> T -> bool) (ueqb : U -> U -> bool)
    (f : V -> W) (h : T -> U),
  (forall x y, weqb (f x) (f y) = veqb x y) -> (forall x y, ueqb (h x) (h y) = teqb x y) ->
  forall (e : trial (t_ga T) V) m,
  tried mga_default (mga_insert_at veqb teqb) (mga_union veqb teqb) (mga_union_at veqb teqb) mga_order e m ->
  exists m', tried mga_default (mga_insert_at weqb ueqb) (mga_union weqb ueqb) (mga_union_at weqb ueqb) mga_order
      (trial_map (tga_map h) f e) m' /\
    (forall t, mga_get ueqb m' (triple_map h t) = map f (mga_get teqb m t)) /\
    (forall c v, fst (mga_insert weqb ueqb (tga_map h c) (f v) m') = fst (mga_insert veqb teqb c v m)) /\
    (forall n c v, fst (mga_insert_at weqb ueqb n (tga_map h c) (f v) m') = fst (mga_insert_at veqb teqb n c v m)).
Proof.
  intros V W T U veqb weqb teqb ueqb f h fe he e m.
  exact (trial_renamed f h (ren_ga veqb weqb teqb ueqb f h fe he) e m).
Qed.
Lemma ga_class_left : forall V T K KT (veqb : V -> V -> bool) (teqb : T -> T -> bool)
    (kv : V -> K) (kt : T -> KT) (cv : K -> K -> bool) (ck : KT -> KT -> bool),
  (forall x y, cv x y = true <-> x = y) -> (forall x y, ck x y = true <-> x = y) ->
  (forall x y, veqb x y = cv (kv x) (kv y)) -> (forall x y, teqb x y = ck (kt x) (kt y)) ->
  forall (e : trial (t_ga T) V) m,
  tried mga_default (mga_insert_at veqb teqb) (mga_union veqb teqb) (mga_union_at veqb teqb) mga_order e m ->
  exists held used, leaves same_key_ga (fun c => 1 + gives_ga c) rank_ga (trial_map (tga_map kt) kv e) held used /\
    (forall t, answers (map kv (mga_get teqb m t)) (fun c v => held c v /\ tga_m c (kt (t_p t)) (kt (t_o t)))) /\
    (forall c v, fst (mga_insert veqb teqb c v m) = true <-> ~ held (tga_map kt c) (kv v)).
Proof.
  intros V T K KT veqb teqb kv kt cv ck CV CK EV ET e m H.
  destruct (ga_class_renamed V K T KT veqb cv teqb ck kv kt (fun x y => eq_sym (EV x y)) (fun x y => eq_sym (ET x y)) e m H)
    as (m' & H' & G & J & _).
  destruct (ga_trial_left cv ck CV CK _ m' H') as (held & used & A & B & _ & C & _).
  exists held, used. split; [exact A|]. split.
  - intros t. rewrite <- G. exact (B (triple_map kt t)).
  - intros c v. rewrite <- J. apply C.
Qed.

Lemma gg_class_exact : forall V T K KT (veqb : V -> V -> bool) (teqb : T -> T -> bool)
    (kv : V -> K) (kt : T -> KT) (cv : K -> K -> bool) (ck : KT -> KT -> bool),
  (forall x y, cv x y = true <-> x = y) -> (forall x y, ck x y = true <-> x = y) ->
  (forall x y, veqb x y = cv (kv x) (kv y)) -> (forall x y, teqb x y = ck (kt x) (kt y)) ->
  forall (e : growth (t_gg T) V) (t : triple T),
  answers (mgg_get teqb (grow mgg_default (mgg_insert veqb teqb) (mgg_union veqb teqb) e) t)
    (fun c v => reps kv same_key_gg (growth_map (tgg_map kt) (fun v => v) e) c v /\ tgg_m c (kt (t_o t))).
Proof.
  intros V T K KT veqb teqb kv kt cv ck CV CK EV ET e t.
  destruct (growth_renamed (fun v => v) kt (ren_gg veqb veqb teqb ck (fun v => v) kt (fun x y => eq_refl) (fun x y => eq_sym (ET x y))) e) as [G _].
  specialize (G t). rewrite map_id in G. rewrite <- G.
  destruct (claws_gg veqb ck kv (kv_spec veqb kv cv CV EV) CK) as (D & I & S & L & U).
  exact (growth_exact kv L U gg_sk_trans gg_sk_refl (growth_map (tgg_map kt) (fun v => v) e) (triple_map kt t)).
Qed.
Lemma gg_class_insert : forall V T K KT (veqb : V -> V -> bool) (teqb : T -> T -> bool)
    (kv : V -> K) (kt : T -> KT) (cv : K -> K -> bool) (ck : KT -> KT -> bool),
  (forall x y, cv x y = true <-> x = y) -> (forall x y, ck x y = true <-> x = y) ->
  (forall x y, veqb x y = cv (kv x) (kv y)) -> (forall x y, teqb x y = ck (kt x) (kt y)) ->
  forall (e : growth (t_gg T) V) c v,
  fst (mgg_insert veqb teqb c v (grow mgg_default (mgg_insert veqb teqb) (mgg_union veqb teqb) e)) = true <->
    ~ exists w, reps kv same_key_gg (growth_map (tgg_map kt) (fun v => v) e) (tgg_map kt c) w /\ kv w = kv v.
Proof.
  intros V T K KT veqb teqb kv kt cv ck CV CK EV ET e c v.
  destruct (growth_renamed (fun v => v) kt (ren_gg veqb veqb teqb ck (fun v => v) kt (fun x y => eq_refl) (fun x y => eq_sym (ET x y))) e) as [_ G].
  rewrite <- G.
  destruct (claws_gg veqb ck kv (kv_spec veqb kv cv CV EV) CK) as (D & I & S & L & U).
  exact (growth_accepts kv L U gg_sk_trans gg_sk_refl (growth_map (tgg_map kt) (fun v => v) e) (tgg_map kt c) v).
Qed.
Lemma gg_class_origin : forall V T K KT (veqb : V -> V -> bool) (teqb : T -> T -> bool)
    (kv : V -> K) (kt : T -> KT) (cv : K -> K -> bool) (ck : KT -> KT -> bool),
  (forall x y, cv x y = true <-> x = y) -> (forall x y, ck x y = true <-> x = y) ->
  (forall x y, veqb x y = cv (kv x) (kv y)) -> (forall x y, teqb x y = ck (kt x) (kt y)) ->
  forall (e : growth (t_gg T) V) (t : triple T) v,
  In v (mgg_get teqb (grow mgg_default (mgg_insert veqb teqb) (mgg_union veqb teqb) e) t) ->
    exists c0, inserted e c0 v /\ let c := tgg_map kt c0 in tgg_m c (kt (t_o t)).
Proof.
  intros V T K KT veqb teqb kv kt cv ck CV CK EV ET e t v H.
  pose proof (gg_class_exact V T K KT veqb teqb kv kt cv ck CV CK EV ET e t) as A.
  destruct (answers_in _ _ A v H) as (c & R & M). apply reps_origin in R. destruct R as (c0 & -> & R). exists c0. auto.
Qed.
Lemma gg_class_classes : forall V T K KT (veqb : V -> V -> bool) (teqb : T -> T -> bool)
    (kv : V -> K) (kt : T -> KT) (cv : K -> K -> bool) (ck : KT -> KT -> bool),
  (forall x y, cv x y = true <-> x = y) -> (forall x y, ck x y = true <-> x = y) ->
  (forall x y, veqb x y = cv (kv x) (kv y)) -> (forall x y, teqb x y = ck (kt x) (kt y)) ->
  forall (e : growth (t_gg T) V) (t : triple T),
  answers (map kv (mgg_get teqb (grow mgg_default (mgg_insert veqb teqb) (mgg_union veqb teqb) e) t))
    (fun c v => kept same_key_gg (growth_map (tgg_map kt) kv e) c v /\ tgg_m c (kt (t_o t))).
Proof.
  intros V T K KT veqb teqb kv kt cv ck CV CK EV ET e t.
  destruct (growth_renamed kv kt (ren_gg veqb cv teqb ck kv kt (fun x y => eq_sym (EV x y)) (fun x y => eq_sym (ET x y))) e) as [G _].
  rewrite <- G.
  exact (gg_growth_get K KT cv ck CV CK (growth_map (tgg_map kt) kv e) (triple_map kt t)).
Qed.
Lemma gg_class_renamed : forall V W T U (veqb : V -> V -> bool) (weqb : W -> W -> bool) (teqb : T -> T -> bool) (ueqb : U -> U -> bool)
    (f : V -> W) (h : T -> U),
  (forall x y, weqb (f x) (f y) = veqb x y) -> (forall x y, ueqb (h x) (h y) = teqb x y) ->
  forall (e : trial (t_gg T) V) m,
  tried mgg_default (mgg_insert_at veqb teqb) (mgg_union veqb teqb) (mgg_union_at veqb teqb) mgg_order e m ->
  exists m', tried mgg_default (mgg_insert_at weqb ueqb) (mgg_union weqb ueqb) (mgg_union_at weqb ueqb) mgg_order
      (trial_map (tgg_map h) f e) m' /\
    (forall t, mgg_get ueqb m' (triple_map h t) = map f (mgg_get teqb m t)) /\
    (forall c v, fst (mgg_insert weqb ueqb (tgg_map h c) (f v) m') = fst (mgg_insert veqb teqb c v m)) /\
    (forall n c v, fst (mgg_insert_at weqb ueqb n (tgg_map h c) (f v) m') = fst (mgg_insert_at veqb teqb n c v m)).
Proof.
  intros V W T U veqb weqb teqb ueqb f h fe he e m.
  exact (trial_renamed f h (ren_gg veqb weqb teqb ueqb f h fe he) e m).
Qed.
Lemma gg_class_left : forall V T K KT (veqb : V -> V -> bool) (teqb : T -> T -> bool)
    (kv : V -> K) (kt : T -> KT) (cv : K -> K -> bool) (ck : KT -> KT -> bool),
  (forall x y, cv x y = true <-> x = y) -> (forall x y, ck x y = true <-> x = y) ->
  (forall x y, veqb x y = cv (kv x) (kv y)) -> (forall x y, teqb x y = ck (kt x) (kt y)) ->
  forall (e : trial (t_gg T) V) m,
  tried mgg_default (mgg_insert_at veqb teqb) (mgg_union veqb teqb) (mgg_union_at veqb teqb) mgg_order e m ->
  exists held used, leaves same_key_gg (fun c => 1 + gives_gg c) rank_gg (trial_map (tgg_map kt) kv e) held used /\
    (forall t, answers (map kv (mgg_get teqb m t)) (fun c v => held c v /\ tgg_m c (kt (t_o t)))) /\
    (forall c v, fst (mgg_insert veqb teqb c v m) = true <-> ~ held (tgg_map kt c) (kv v)).
Proof.
  intros V T K KT veqb teqb kv kt cv ck CV CK EV ET e m H.
  destruct (gg_class_renamed V K T KT veqb cv teqb ck kv kt (fun x y => eq_sym (EV x y)) (fun x y => eq_sym (ET x y)) e m H)
    as (m' & H' & G & J & _).
  destruct (gg_trial_left cv ck CV CK _ m' H') as (held & used & A & B & _ & C & _).
  exists held, used. split; [exact A|]. split.
  - intros t. rewrite <- G. exact (B (triple_map kt t)).
  - intros c v. rewrite <- J. apply C.
Qed.

Lemma aa_class_exact : forall V T K KT (veqb : V -> V -> bool) (teqb : T -> T -> bool)
    (kv : V -> K) (kt : T -> KT) (cv : K -> K -> bool) (ck : KT -> KT -> bool),
  (forall x y, cv x y = true <-> x = y) -> (forall x y, ck x y = true <-> x = y) ->
  (forall x y, veqb x y = cv (kv x) (kv y)) -> (forall x y, teqb x y = ck (kt x) (kt y)) ->
  forall (e : growth (t_aa T) V) (t : triple T),
  answers (maa_get teqb (grow maa_default (maa_insert veqb teqb) (maa_union veqb teqb) e) t)
    (fun c v => reps kv same_key_aa (growth_map (taa_map kt) (fun v => v) e) c v /\ taa_m c (kt (t_s t)) (kt (t_p t)) (kt (t_o t))).
Proof.
  intros V T K KT veqb teqb kv kt cv ck CV CK EV ET e t.
  destruct (growth_renamed (fun v => v) kt (ren_aa veqb veqb teqb ck (fun v => v) kt (fun x y => eq_refl) (fun x y => eq_sym (ET x y))) e) as [G _].
  specialize (G t). rewrite map_id in G. rewrite <- G.
  destruct (claws_aa veqb ck kv (kv_spec veqb kv cv CV EV) CK) as (D & I & S & L & U).
  exact (growth_exact kv L U aa_sk_trans aa_sk_refl (growth_map (taa_map kt) (fun v => v) e) (triple_map kt t)).
Qed.
Lemma aa_class_insert : forall V T K KT (veqb : V -> V -> bool) (teqb : T -> T -> bool)
    (kv : V -> K) (kt : T -> KT) (cv : K -> K -> bool) (ck : KT -> KT -> bool),
  (forall x y, cv x y = true <-> x = y) -> (forall x y, ck x y = true <-> x = y) ->
  (forall x y, veqb x y = cv (kv x) (kv y)) -> (forall x y, teqb x y = ck (kt x) (kt y)) ->
  forall (e : growth (t_aa T) V) c v,
  fst (maa_insert veqb teqb c v (grow maa_default (maa_insert veqb teqb) (maa_union veqb teqb) e)) = true <->
    ~ exists w, reps kv same_key_aa (growth_map (taa_map kt) (fun v => v) e) (taa_map kt c) w /\ kv w = kv v.
Proof.
  intros V T K KT veqb teqb kv kt cv ck CV CK EV ET e c v.
  destruct (growth_renamed (fun v => v) kt (ren_aa veqb veqb teqb ck (fun v => v) kt (fun x y => eq_refl) (fun x y => eq_sym (ET x y))) e) as [_ G].
  rewrite <- G.
  destruct (claws_aa veqb ck kv (kv_spec veqb kv cv CV EV) CK) as (D & I & S & L & U).
  exact (growth_accepts kv L U aa_sk_trans aa_sk_refl (growth_map (taa_map kt) (fun v => v) e) (taa_map kt c) v).
Qed.
Lemma aa_class_origin : forall V T K KT (veqb : V -> V -> bool) (teqb : T -> T -> bool)
    (kv : V -> K) (kt : T -> KT) (cv : K -> K -> bool) (ck : KT -> KT -> bool),
  (forall x y, cv x y = true <-> x = y) -> (forall x y, ck x y = true <-> x = y) ->
  (forall x y, veqb x y = cv (kv x) (kv y)) -> (forall x y, teqb x y = ck (kt x) (kt y)) ->
  forall (e : growth (t_aa T) V) (t : triple T) v,
  In v (maa_get teqb (grow maa_default (maa_insert veqb teqb) (maa_union veqb teqb) e) t) ->
    exists c0, inserted e c0 v /\ let c := taa_map kt c0 in taa_m c (kt (t_s t)) (kt (t_p t)) (kt (t_o t)).
Proof.
  intros V T K KT veqb teqb kv kt cv ck CV CK EV ET e t v H.
  pose proof (aa_class_exact V T K KT veqb teqb kv kt cv ck CV CK EV ET e t) as A.
  destruct (answers_in _ _ A v H) as (c & R & M). apply reps_origin in R. destruct R as (c0 & -> & R). exists c0. auto.
Qed.
Lemma aa_class_classes : forall V T K KT (veqb : V -> V -> bool) (teqb : T -> T -> bool)
    (kv : V -> K) (kt : T -> KT) (cv : K -> K -> bool) (ck : KT -> KT -> bool),
  (forall x y, cv x y = true <-> x = y) -> (forall x y, ck x y = true <-> x = y) ->
  (forall x y, veqb x y = cv (kv x) (kv y)) -> (forall x y, teqb x y = ck (kt x) (kt y)) ->
  forall (e : growth (t_aa T) V) (t : triple T),
  answers (map kv (maa_get teqb (grow maa_default (maa_insert veqb teqb) (maa_union veqb teqb) e) t))
    (fun c v => kept same_key_aa (growth_map (taa_map kt) kv e) c v /\ taa_m c (kt (t_s t)) (kt (t_p t)) (kt (t_o t))).
Proof.
  intros V T K KT veqb teqb kv kt cv ck CV CK EV ET e t.
  destruct (growth_renamed kv kt (ren_aa veqb cv teqb ck kv kt (fun x y => eq_sym (EV x y)) (fun x y => eq_sym (ET x y))) e) as [G _].
  rewrite <- G.
  exact (aa_growth_get K KT cv ck CV CK (growth_map (taa_map kt) kv e) (triple_map kt t)).
Qed.
Lemma aa_class_renamed : forall V W T U (veqb : V -> V -> bool) (weqb : W -> W -> bool) (teqb : T -> T -> bool) (ueqb : U -> U -> bool)
    (f : V -> W) (h : T -> U),
  (forall x y, weqb (f x) (f y) = veqb x y) -> (forall x y, ueqb (h x) (h y) = teqb x y) ->
  forall (e : trial (t_aa T) V) m,
  tried maa_default (maa_insert_at veqb teqb) (maa_union veqb teqb) (maa_union_at veqb teqb) maa_order e m ->
  exists m', tried maa_default (maa_insert_at weqb ueqb) (maa_union weqb ueqb) (maa_union_at weqb ueqb) maa_order
      (trial_map (taa_map h) f e) m' /\
    (forall t, maa_get ueqb m' (triple_map h t) = map f (maa_get teqb m t)) /\
    (forall c v, fst (maa_insert weqb ueqb (taa_map h c) (f v) m') = fst (maa_insert veqb teqb c v m)) /\
    (forall n c v, fst (maa_insert_at weqb ueqb n (taa_map h c) (f v) m') = fst (maa_insert_at veqb teqb n c v m)).
Proof.
  intros V W T U veqb weqb teqb ueqb f h fe he e m.
  exact (trial_renamed f h (ren_aa veqb weqb teqb ueqb f h fe he) e m).
Qed.
Lemma aa_class_left : forall V T K KT (veqb : V -> V -> bool) (teqb : T -> T -> bool)
    (kv : V -> K) (kt : T -> KT) (cv : K -> K -> bool) (ck : KT -> KT -> bool),
  (forall x y, cv x y = true <-> x = y) -> (forall x y, ck x y = true <-> x = y) ->
  (forall x y, veqb x y = cv (kv x) (kv y)) -> (forall x y, teqb x y = ck (kt x) (kt y)) ->
  forall (e : trial (t_aa T) V) m,
  tried maa_default (maa_insert_at veqb teqb) (maa_union veqb teqb) (maa_union_at veqb teqb) maa_order e m ->
  exists held used, leaves same_key_aa (fun c => 1 + gives_aa c) rank_aa (trial_map (taa_map kt) kv e) held used /\
    (forall t, answers (map kv (maa_get teqb m t)) (fun c v => held c v /\ taa_m c (kt (t_s t)) (kt (t_p t)) (kt (t_o t)))) /\
    (forall c v, fst (maa_insert veqb teqb c v m) = true <-> ~ held (taa_map kt c) (kv v)).
Proof.
  intros V T K KT veqb teqb kv kt cv ck CV CK EV ET e m H.
  destruct (aa_class_renamed V K T KT veqb cv teqb ck kv kt (fun x y => eq_sym (EV x y)) (fun x y => eq_sym (ET x y)) e m H)
    as (m' & H' & G & J & _).
  destruct (aa_trial_left cv ck CV CK _ m' H') as (held & used & A & B & _ & C & _).
  exists held, used. split; [exact A|]. split.
  - intros t. rewrite <- G. exact (B (triple_map kt t)).
  - intros c v. rewrite <- J. apply C.
Qed.

Lemma ag_class_exact : forall V T K KT (veqb : V -> V -> bool) (teqb : T -> T -> bool)
    (kv : V -> K) (kt : T -> KT) (cv : K -> K -> bool) (ck : KT -> KT -> bool),
  (forall x y, cv x y = true <-> x = y) -> (forall x y, ck x y = true <-> x = y) ->
  (forall x y, veqb x y = cv (kv x) (kv y)) -> (forall x y, teqb x y = ck (kt x) (kt y)) ->
  forall (e : growth (t_ag T) V) (t : triple T),
  answers (mag_get teqb (grow mag_default (mag_insert veqb teqb) (mag_union veqb teqb) e) t)
    (fun c v => reps kv same_key_ag (growth_map (tag_map kt) (fun v => v) e) c v /\ tag_m c (kt (t_s t)) (kt (t_o t))).
Proof.
  intros V T K KT veqb teqb kv kt cv ck CV CK EV ET e t.
  destruct (growth_renamed (fun v => v) kt (ren_ag veqb veqb teqb ck (fun v => v) kt (fun x y => eq_refl) (fun x y => eq_sym (ET x y))) e) as [G _].
  specialize (G t). rewrite map_id in G. rewrite <- G.
  destruct (claws_ag veqb ck kv (kv_spec veqb kv cv CV EV) CK) as (D & I & S & L & U).
  exact (growth_exact kv L U ag_sk_trans ag_sk_refl (growth_map (tag_map kt) (fun v => v) e) (triple_map kt t)).
Qed.
Lemma ag_class_insert : forall V T K KT (veqb : V -> V -> bool) (teqb : T -> T -> bool)
    (kv : V -> K) (kt : T -> KT) (cv : K -> K -> bool) (ck : KT -> KT -> bool),
  (forall x y, cv x y = true <-> x = y) -> (forall x y, ck x y = true <-> x = y) ->
  (forall x y, veqb x y = cv (kv x) (kv y)) -> (forall x y, teqb x y = ck (kt x) (kt y)) ->
  forall (e : growth (t_ag T) V) c v,
  fst (mag_insert veqb teqb c v (grow mag_default (mag_insert veqb teqb) (mag_union veqb teqb) e)) = true <->
    ~ exists w, reps kv same_key_ag (growth_map (tag_map kt) (fun v => v) e) (tag_map kt c) w /\ kv w = kv v.
Proof.
  intros V T K KT veqb teqb kv kt cv ck CV CK EV ET e c v.
  destruct (growth_renamed (fun v => v) kt (ren_ag veqb veqb teqb ck (fun v => v) kt (fun x y => eq_refl) (fun x y => eq_sym (ET x y))) e) as [_ G].
  rewrite <- G.
  destruct (claws_ag veqb ck kv (kv_spec veqb kv cv CV EV) CK) as (D & I & S & L & U).
  exact (growth_accepts kv L U ag_sk_trans ag_sk_refl (growth_map (tag_map kt) (fun v => v) e) (tag_map kt c) v).
Qed.
Lemma ag_class_origin : forall V T K KT (veqb : V -> V -> bool) (teqb : T -> T -> bool)
    (kv : V -> K) (kt : T -> KT) (cv : K -> K -> bool) (ck : KT -> KT -> bool),
  (forall x y, cv x y = true <-> x = y) -> (forall x y, ck x y = true <-> x = y) ->
  (forall x y, veqb x y = cv (kv x) (kv y)) -> (forall x y, teqb x y = ck (kt x) (kt y)) ->
  forall (e : growth (t_ag T) V) (t : triple T) v,
  In v (mag_get teqb (grow mag_default (mag_insert veqb teqb) (mag_union veqb teqb) e) t) ->
    exists c0, inserted e c0 v /\ let c := tag_map kt c0 in tag_m c (kt (t_s t)) (kt (t_o t)).
Proof.
  intros V T K KT veqb teqb kv kt cv ck CV CK EV ET e t v H.
  pose proof (ag_class_exact V T K KT veqb teqb kv kt cv ck CV CK EV ET e t) as A.
  destruct (answers_in _ _ A v H) as (c & R & M). apply reps_origin in R. destruct R as (c0 & -> & R). exists c0. auto.
Qed.
Lemma ag_class_classes : forall V T K KT (veqb : V -> V -> bool) (teqb : T -> T -> bool)
    (kv : V -> K) (kt : T -> KT) (cv : K -> K -> bool) (ck : KT -> KT -> bool),
  (forall x y, cv x y = true <-> x = y) -> (forall x y, ck x y = true <-> x = y) ->
  (forall x y, veqb x y = cv (kv x) (kv y)) -> (forall x y, teqb x y = ck (kt x) (kt y)) ->
  forall (e : growth (t_ag T) V) (t : triple T),
  answers (map kv (mag_get teqb (grow mag_default (mag_insert veqb teqb) (mag_union veqb teqb) e) t))
    (fun c v => kept same_key_ag (growth_map (tag_map kt) kv e) c v /\ tag_m c (kt (t_s t)) (kt (t_o t))).
Proof.
  intros V T K KT veqb teqb kv kt cv ck CV CK EV ET e t.
  destruct (growth_renamed kv kt (ren_ag veqb cv teqb ck kv kt (fun x y => eq_sym (EV x y)) (fun x y => eq_sym (ET x y))) e) as [G _].
  rewrite <- G.
  exact (ag_growth_get K KT cv ck CV CK (growth_map (tag_map kt) kv e) (triple_map kt t)).
Qed.
Lemma ag_class_renamed : forall V W T U (veqb : V -> V -> bool) (weqb : W -> W -> bool) (teqb : T -> T -> bool) (ueqb : U -> U -> bool)
    (f : V -> W) (h : T -> U),
  (forall x y, weqb (f x) (f y) = veqb x y) -> (forall x y, ueqb (h x) (h y) = teqb x y) ->
  forall (e : trial (t_ag T) V) m,
  tried mag_default (mag_insert_at veqb teqb) (mag_union veqb teqb) (mag_union_at veqb teqb) mag_order e m ->
  exists m', tried mag_default (mag_insert_at weqb ueqb) (mag_union weqb ueqb) (mag_union_at weqb ueqb) mag_order
      (trial_map (tag_map h) f e) m' /\
    (forall t, mag_get ueqb m' (triple_map h t) = map f (mag_get teqb m t)) /\
    (forall c v, fst (mag_insert weqb ueqb (tag_map h c) (f v) m') = fst (mag_insert veqb teqb c v m)) /\
    (forall n c v, fst (mag_insert_at weqb ueqb n (tag_map h c) (f v) m') = fst (mag_insert_at veqb teqb n c v m)).
Proof.
  intros V W T U veqb weqb teqb ueqb f h fe he e m.
  exact (trial_renamed f h (ren_ag veqb weqb teqb ueqb f h fe he) e m).
Qed.
Lemma ag_class_left : forall V T K KT (veqb : V -> V -> bool) (teqb : T -> T -> bool)
    (kv : V -> K) (kt : T -> KT) (cv : K -> K -> bool) (ck : KT -> KT -> bool),
  (forall x y, cv x y = true <-> x = y) -> (forall x y, ck x y = true <-> x = y) ->
  (forall x y, veqb x y = cv (kv x) (kv y)) -> (forall x y, teqb x y = ck (kt x) (kt y)) ->
  forall (e : trial (t_ag T) V) m,
  tried mag_default (mag_insert_at veqb teqb) (mag_union veqb teqb) (mag_union_at veqb teqb) mag_order e m ->
  exists held used, leaves same_key_ag (fun c => 1 + gives_ag c) rank_ag (trial_map (tag_map kt) kv e) held used /\
    (forall t, answers (map kv (mag_get teqb m t)) (fun c v => held c v /\ tag_m c (kt (t_s t)) (kt (t_o t)))) /\
    (forall c v, fst (mag_insert veqb teqb c v m) = true <-> ~ held (tag_map kt c) (kv v)).
Proof.
  intros V T K KT veqb teqb kv kt cv ck CV CK EV ET e m H.
  destruct (ag_class_renamed V K T KT veqb cv teqb ck kv kt (fun x y => eq_sym (EV x y)) (fun x y => eq_sym (ET x y)) e m H)
    as (m' & H' & G & J & _).
  destruct (ag_trial_left cv ck CV CK _ m' H') as (held & used & A & B & _ & C & _).
  exists held, used. split; [exact A|]. split.
  - intros t. rewrite <- G. exact (B (triple_map kt t)).
  - intros c v. rewrite <- J. apply C.
Qed.

Lemma gs_class_exact : forall V T K KT (veqb : V -> V -> bool) (teqb : T -> T -> bool)
    (kv : V -> K) (kt : T -> KT) (cv : K -> K -> bool) (ck : KT -> KT -> bool),
  (forall x y, cv x y = true <-> x = y) -> (forall x y, ck x y = true <-> x = y) ->
  (forall x y, veqb x y = cv (kv x) (kv y)) -> (forall x y, teqb x y = ck (kt x) (kt y)) ->
  forall (e : growth (t_gs T) V) (t : triple T),
  answers (mgs_get teqb (grow mgs_default (mgs_insert veqb teqb) (mgs_union veqb teqb) e) t)
    (fun c v => reps kv same_key_gs (growth_map (tgs_map kt) (fun v => v) e) c v /\ tgs_m c (kt (t_p t)) (kt (t_o t))).
Proof.
  intros V T K KT veqb teqb kv kt cv ck CV CK EV ET e t.
  destruct (growth_renamed (fun v => v) kt (ren_gs veqb veqb teqb ck (fun v => v) kt (fun x y => eq_refl) (fun x y => eq_sym (ET x y))) e) as [G _].
  specialize (G t). rewrite map_id in G. rewrite <- G.
  destruct (claws_gs veqb ck kv (kv_spec veqb kv cv CV EV) CK) as (D & I & S & L & U).
  exact (growth_exact kv L U gs_sk_trans gs_sk_refl (growth_map (tgs_map kt) (fun v => v) e) (triple_map kt t)).
Qed.
Lemma gs_class_insert : forall V T K KT (veqb : V -> V -> bool) (teqb : T -> T -> bool)
    (kv : V -> K) (kt : T -> KT) (cv : K -> K -> bool) (ck : KT -> KT -> bool),
  (forall x y, cv x y = true <-> x = y) -> (forall x y, ck x y = true <-> x = y) ->
  (forall x y, veqb x y = cv (kv x) (kv y)) -> (forall x y, teqb x y = ck (kt x) (kt y)) ->
  forall (e : growth (t_gs T) V) c v,
  fst (mgs_insert veqb teqb c v (grow mgs_default (mgs_insert veqb teqb) (mgs_union veqb teqb) e)) = true <->
    ~ exists w, reps kv same_key_gs (growth_map (tgs_map kt) (fun v => v) e) (tgs_map kt c) w /\ kv w = kv v.
Proof.
  intros V T K KT veqb teqb kv kt cv ck CV CK EV ET e c v.
  destruct (growth_renamed (fun v => v) kt (ren_gs veqb veqb teqb ck (fun v => v) kt (fun x y => eq_refl) (fun x y => eq_sym (ET x y))) e) as [_ G].
  rewrite <- G.
  destruct (claws_gs veqb ck kv (kv_spec veqb kv cv CV EV) CK) as (D & I & S & L & U).
  exact (growth_accepts kv L U gs_sk_trans gs_sk_refl (growth_map (tgs_map kt) (fun v => v) e) (tgs_map kt c) v).
Qed.
Lemma gs_class_origin : forall V T K KT (veqb : V -> V -> bool) (teqb : T -> T -> bool)
    (kv : V -> K) (kt : T -> KT) (cv : K -> K -> bool) (ck : KT -> KT -> bool),
  (forall x y, cv x y = true <-> x = y) -> (forall x y, ck x y = true <-> x = y) ->
  (forall x y, veqb x y = cv (kv x) (kv y)) -> (forall x y, teqb x y = ck (kt x) (kt y)) ->
  forall (e : growth (t_gs T) V) (t : triple T) v,
  In v (mgs_get teqb (grow mgs_default (mgs_insert veqb teqb) (mgs_union veqb teqb) e) t) ->
    exists c0, inserted e c0 v /\ let c := tgs_map kt c0 in tgs_m c (kt (t_p t)) (kt (t_o t)).
Proof.
  intros V T K KT veqb teqb kv kt cv ck CV CK EV ET e t v H.
  pose proof (gs_class_exact V T K KT veqb teqb kv kt cv ck CV CK EV ET e t) as A.
  destruct (answers_in _ _ A v H) as (c & R & M). apply reps_origin in R. destruct R as (c0 & -> & R). exists c0. auto.
Qed.
Lemma gs_class_classes : forall V T K KT (veqb : V -> V -> bool) (teqb : T -> T -> bool)
    (kv : V -> K) (kt : T -> KT) (cv : K -> K -> bool) (ck : KT -> KT -> bool),
  (forall x y, cv x y = true <-> x = y) -> (forall x y, ck x y = true <-> x = y) ->
  (forall x y, veqb x y = cv (kv x) (kv y)) -> (forall x y, teqb x y = ck (kt x) (kt y)) ->
  forall (e : growth (t_gs T) V) (t : triple T),
  answers (map kv (mgs_get teqb (grow mgs_default (mgs_insert veqb teqb) (mgs_union veqb teqb) e) t))
    (fun c v => kept same_key_gs (growth_map (tgs_map kt) kv e) c v /\ tgs_m c (kt (t_p t)) (kt (t_o t))).
Proof.
  intros V T K KT veqb teqb kv kt cv ck CV CK EV ET e t.
  destruct (growth_renamed kv kt (ren_gs veqb cv teqb ck kv kt (fun x y => eq_sym (EV x y)) (fun x y => eq_sym (ET x y))) e) as [G _].
  rewrite <- G.
  exact (gs_growth_get K KT cv ck CV CK (growth_map (tgs_map kt) kv e) (triple_map kt t)).
Qed.
Lemma gs_class_renamed : forall V W T U (veqb : V -> V -> bool) (weqb : W -> W -> bool) (teqb : T -> T -> bool) (ueqb : U -> U -> bool)
    (f : V -> W) (h : T -> U),
  (forall x y, weqb (f x) (f y) = veqb x y) -> (forall x y, ueqb (h x) (h y) = teqb x y) ->
  forall (e : trial (t_gs T) V) m,
  tried mgs_default (mgs_insert_at veqb teqb) (mgs_union veqb teqb) (mgs_union_at veqb teqb) mgs_order e m ->
  exists m', tried mgs_default (mgs_insert_at weqb ueqb) (mgs_union weqb ueqb) (mgs_union_at weqb ueqb) mgs_order
      (trial_map (tgs_map h) f e) m' /\
    (forall t, mgs_get ueqb m' (triple_map h t) = map f (mgs_get teqb m t)) /\
    (forall c v, fst (mgs_insert weqb ueqb (tgs_map h c) (f v) m') = fst (mgs_insert veqb teqb c v m)) /\
    (forall n c v, fst (mgs_insert_at weqb ueqb n (tgs_map h c) (f v) m') = fst (mgs_insert_at veqb teqb n c v m)).
Proof.
  intros V W T U veqb weqb teqb ueqb f h fe he e m.
  exact (trial_renamed f h (ren_gs veqb weqb teqb ueqb f h fe he) e m).
Qed.
Lemma gs_class_left : forall V T K KT (veqb : V -> V -> bool) (teqb : T -> T -> bool)
    (kv : V -> K) (kt : T -> KT) (cv : K -> K -> bool) (ck : KT -> KT -> bool),
  (forall x y, cv x y = true <-> x = y) -> (forall x y, ck x y = true <-> x = y) ->
  (forall x y, veqb x y = cv (kv x) (kv y)) -> (forall x y, teqb x y = ck (kt x) (kt y)) ->
  forall (e : trial (t_gs T) V) m,
  tried mgs_default (mgs_insert_at veqb teqb) (mgs_union veqb teqb) (mgs_union_at veqb teqb) mgs_order e m ->
  exists held used, leaves same_key_gs (fun c => 1 + gives_gs c) rank_gs (trial_map (tgs_map kt) kv e) held used /\
    (forall t, answers (map kv (mgs_get teqb m t)) (fun c v => held c v /\ tgs_m c (kt (t_p t)) (kt (t_o t)))) /\
    (forall c v, fst (mgs_insert veqb teqb c v m) = true <-> ~ held (tgs_map kt c) (kv v)).
Proof.
  intros V T K KT veqb teqb kv kt cv ck CV CK EV ET e m H.
  destruct (gs_class_renamed V K T KT veqb cv teqb ck kv kt (fun x y => eq_sym (EV x y)) (fun x y => eq_sym (ET x y)) e m H)
    as (m' & H' & G & J & _).
  destruct (gs_trial_left cv ck CV CK _ m' H') as (held & used & A & B & _ & C & _).
  exists held, used. split; [exact A|]. split.
  - intros t. rewrite <- G. exact (B (triple_map kt t)).
  - intros c v. rewrite <- J. apply C.
Qed.

Lemma as_class_exact : forall V T K KT (veqb : V -> V -> bool) (teqb : T -> T -> bool)
    (kv : V -> K) (kt : T -> KT) (cv : K -> K -> bool) (ck : KT -> KT -> bool),
  (forall x y, cv x y = true <-> x = y) -> (forall x y, ck x y = true <-> x = y) ->
  (forall x y, veqb x y = cv (kv x) (kv y)) -> (forall x y, teqb x y = ck (kt x) (kt y)) ->
  forall (e : growth (t_as T) V) (t : triple T),
  answers (mas_get teqb (grow mas_default (mas_insert veqb teqb) (mas_union veqb teqb) e) t)
    (fun c v => reps kv same_key_as (growth_map (tas_map kt) (fun v => v) e) c v /\ tas_m c (kt (t_s t)) (kt (t_p t)) (kt (t_o t))).
Proof.
  intros V T K KT veqb teqb kv kt cv ck CV CK EV ET e t.
  destruct (growth_renamed (fun v => v) kt (ren_as veqb veqb teqb ck (fun v => v) kt (fun x y => eq_refl) (fun x y => eq_sym (ET x y))) e) as [G _].
  specialize (G t). rewrite map_id in G. rewrite <- G.
  destruct (claws_as veqb ck kv (kv_spec veqb kv cv CV EV) CK) as (D & I & S & L & U).
  exact (growth_exact kv L U as_sk_trans as_sk_refl (growth_map (tas_map kt) (fun v => v) e) (triple_map kt t)).
Qed.
Lemma as_class_insert : forall V T K KT (veqb : V -> V -> bool) (teqb : T -> T -> bool)
    (kv : V -> K) (kt : T -> KT) (cv : K -> K -> bool) (ck : KT -> KT -> bool),
  (forall x y, cv x y = true <-> x = y) -> (forall x y, ck x y = true <-> x = y) ->
  (forall x y, veqb x y = cv (kv x) (kv y)) -> (forall x y, teqb x y = ck (kt x) (kt y)) ->
  forall (e : growth (t_as T) V) c v,
  fst (mas_insert veqb teqb c v (grow mas_default (mas_insert veqb teqb) (mas_union veqb teqb) e)) = true <->
    ~ exists w, reps kv same_key_as (growth_map (tas_map kt) (fun v => v) e) (tas_map kt c) w /\ kv w = kv v.
Proof.
  intros V T K KT veqb teqb kv kt cv ck CV CK EV ET e c v.
  destruct (growth_renamed (fun v => v) kt (ren_as veqb veqb teqb ck (fun v => v) kt (fun x y => eq_refl) (fun x y => eq_sym (ET x y))) e) as [_ G].
  rewrite <- G.
  destruct (claws_as veqb ck kv (kv_spec veqb kv cv CV EV) CK) as (D & I & S & L & U).
  exact (growth_accepts kv L U as_sk_trans as_sk_refl (growth_map (tas_map kt) (fun v => v) e) (tas_map kt c) v).
Qed.
Lemma as_class_origin : forall V T K KT (veqb : V -> V -> bool) (teqb : T -> T -> bool)
    (kv : V -> K) (kt : T -> KT) (cv : K -> K -> bool) (ck : KT -> KT -> bool),
  (forall x y, cv x y = true <-> x = y) -> (forall x y, ck x y = true <-> x = y) ->
  (forall x y, veqb x y = cv (kv x) (kv y)) -> (forall x y, teqb x y = ck (kt x) (kt y)) ->
  forall (e : growth (t_as T) V) (t : triple T) v,
  In v (mas_get teqb (grow mas_default (mas_insert veqb teqb) (mas_union veqb teqb) e) t) ->
    exists c0, inserted e c0 v /\ let c := tas_map kt c0 in tas_m c (kt (t_s t)) (kt (t_p t)) (kt (t_o t)).
Proof.
  intros V T K KT veqb teqb kv kt cv ck CV CK EV ET e t v H.
  pose proof (as_class_exact V T K KT veqb teqb kv kt cv ck CV CK EV ET e t) as A.
  destruct (answers_in _ _ A v H) as (c & R & M). apply reps_origin in R. destruct R as (c0 & -> & R). exists c0. auto.
Qed.
Lemma as_class_classes : forall V T K KT (veqb : V -> V -> bool) (teqb : T -> T -> bool)
    (kv : V -> K) (kt : T -> KT) (cv : K -> K -> bool) (ck : KT -> KT -> bool),
  (forall x y, cv x y = true <-> x = y) -> (forall x y, ck x y = true <-> x = y) ->
  (forall x y, veqb x y = cv (kv x) (kv y)) -> (forall x y, teqb x y = ck (kt x) (kt y)) ->
  forall (e : growth (t_as T) V) (t : triple T),
  answers (map kv (mas_get teqb (grow mas_default (mas_insert veqb teqb) (mas_union veqb teqb) e) t))
    (fun c v => kept same_key_as (growth_map (tas_map kt) kv e) c v /\ tas_m c (kt (t_s t)) (kt (t_p t)) (kt (t_o t))).
Proof.
  intros V T K KT veqb teqb kv kt cv ck CV CK EV ET e t.
  destruct (growth_renamed kv kt (ren_as veqb cv teqb ck kv kt (fun x y => eq_sym (EV x y)) (fun x y => eq_sym (ET x y))) e) as [G _].
  rewrite <- G.
  exact (as_growth_get K KT cv ck CV CK (growth_map (tas_map kt) kv e) (triple_map kt t)).
Qed.
Lemma as_class_renamed : forall V W T U (veqb : V -> V -> bool) (weqb : W -> W -> bool) (teqb : T -> T -> bool) (ueqb : U -> U -> bool)
    (f : V -> W) (h : T -> U),
  (forall x y, weqb (f x) (f y) = veqb x y) -> (forall x y, ueqb (h x) (h y) = teqb x y) ->
  forall (e : trial (t_as T) V) m,
  tried mas_default (mas_insert_at veqb teqb) (mas_union veqb teqb) (mas_union_at veqb teqb) mas_order e m ->
  exists m', tried mas_default (mas_insert_at weqb ueqb) (mas_union weqb ueqb) (mas_union_at weqb ueqb) mas_order
      (trial_map (tas_map h) f e) m' /\
    (forall t, mas_get ueqb m' (triple_map h t) = map f (mas_get teqb m t)) /\
    (forall c v, fst (mas_insert weqb ueqb (tas_map h c) (f v) m') = fst (mas_insert veqb teqb c v m)) /\
    (forall n c v, fst (mas_insert_at weqb ueqb n (tas_map h c) (f v) m') = fst (mas_insert_at veqb teqb n c v m)).
Proof.
  intros V W T U veqb weqb teqb ueqb f h fe he e m.
  exact (trial_renamed f h (ren_as veqb weqb teqb ueqb f h fe he) e m).
Qed.
Lemma as_class_left : forall V T K KT (veqb : V -> V -> bool) (teqb : T -> T -> bool)
    (kv : V -> K) (kt : T -> KT) (cv : K -> K -> bool) (ck : KT -> KT -> bool),
  (forall x y, cv x y = true <-> x = y) -> (forall x y, ck x y = true <-> x = y) ->
  (forall x y, veqb x y = cv (kv x) (kv y)) -> (forall x y, teqb x y = ck (kt x) (kt y)) ->
  forall (e : trial (t_as T) V) m,
  tried mas_default (mas_insert_at veqb teqb) (mas_union veqb teqb) (mas_union_at veqb teqb) mas_order e m ->
  exists held used, leaves same_key_as (fun c => 1 + gives_as c) rank_as (trial_map (tas_map kt) kv e) held used /\
    (forall t, answers (map kv (mas_get teqb m t)) (fun c v => held c v /\ tas_m c (kt (t_s t)) (kt (t_p t)) (kt (t_o t)))) /\
    (forall c v, fst (mas_insert veqb teqb c v m) = true <-> ~ held (tas_map kt c) (kv v)).
Proof.
  intros V T K KT veqb teqb kv kt cv ck CV CK EV ET e m H.
  destruct (as_class_renamed V K T KT veqb cv teqb ck kv kt (fun x y => eq_sym (EV x y)) (fun x y => eq_sym (ET x y)) e m H)
    as (m' & H' & G & J & _).
  destruct (as_trial_left cv ck CV CK _ m' H') as (held & used & A & B & _ & C & _).
  exists held, used. split; [exact A|]. split.
  - intros t. rewrite <- G. exact (B (triple_map kt t)).
  - intros c v. rewrite <- J. apply C.
Qed.

Lemma tpm_class_exact : forall V T K KT (veqb : V -> V -> bool) (teqb : T -> T -> bool)
    (kv : V -> K) (kt : T -> KT) (cv : K -> K -> bool) (ck : KT -> KT -> bool),
  (forall x y, cv x y = true <-> x = y) -> (forall x y, ck x y = true <-> x = y) ->
  (forall x y, veqb x y = cv (kv x) (kv y)) -> (forall x y, teqb x y = ck (kt x) (kt y)) ->
  forall (l : list (ctp T * V)) (t : triple T),
  answers (tpm_get teqb (snd (insert_all (tpm_insert veqb teqb) l tpm_default)) t)
    (fun c v => first_of kv (map (fun cv => (ct_map kt (fst cv), snd cv)) l) c v /\ ct_matches c (triple_map kt t)).
Proof.
  intros V T K KT veqb teqb kv kt cv ck CV CK EV ET l t.
  destruct (tpm_renamed veqb veqb teqb ck (fun v => v) kt (fun x y => eq_refl) (fun x y => eq_sym (ET x y)) l) as [_ G].
  specialize (G t). rewrite map_id in G. rewrite <- G.
  destruct (claws_tp veqb ck kv (kv_spec veqb kv cv CV EV) CK) as (D & I & L).
  destruct (firsts kv _ _ _ _ _ _ L (map (fun cv => (ct_map kt (fst cv), snd cv)) l)) as (J & E & _).
  apply yields_answers. eapply yields_ext; [apply (g_get _ _ _ _ _ _ _ L); exact J|]. intros c v. cbn. now rewrite E.
Qed.
Lemma tpm_class_insert : forall V T K KT (veqb : V -> V -> bool) (teqb : T -> T -> bool)
    (kv : V -> K) (kt : T -> KT) (cv : K -> K -> bool) (ck : KT -> KT -> bool),
  (forall x y, cv x y = true <-> x = y) -> (forall x y, ck x y = true <-> x = y) ->
  (forall x y, veqb x y = cv (kv x) (kv y)) -> (forall x y, teqb x y = ck (kt x) (kt y)) ->
  forall (l : list (ctp T * V)) c v,
  fst (tpm_insert veqb teqb c v (snd (insert_all (tpm_insert veqb teqb) l tpm_default))) = true <->
    ~ exists c' w, In (c', w) l /\ ct_map kt c' = ct_map kt c /\ kv w = kv v.
Proof.
  intros V T K KT veqb teqb kv kt cv ck CV CK EV ET l c v.
  pose proof (tpm_all_r veqb veqb teqb ck (fun v => v) kt (fun x y => eq_refl) (fun x y => eq_sym (ET x y)) l tpm_default) as G.
  change (tpm_map (fun v => v) kt tpm_default) with (@tpm_default V KT) in G. unfold pmap in G.
  pose proof (tpm_insert_r veqb veqb teqb ck (fun v => v) kt (fun x y => eq_refl) (fun x y => eq_sym (ET x y)) c v
    (snd (insert_all (tpm_insert veqb teqb) l tpm_default))) as F.
  apply (f_equal snd) in G. unfold both in G. cbn [snd] in G. rewrite <- G in F.
  apply (f_equal fst) in F. unfold both in F. cbn [fst] in F. rewrite <- F.
  destruct (claws_tp veqb ck kv (kv_spec veqb kv cv CV EV) CK) as (D & I & L).
  destruct (firsts kv _ _ _ _ _ _ L (map (fun cv => (ct_map kt (fst cv), snd cv)) l)) as (J & E & H).
  destruct (g_new _ _ _ _ _ _ _ L _ (ct_map kt c) v J) as [[-> N]|[-> (w & A & B)]].
  - split; [|reflexivity]. intros _ (c' & w & A & B & C). apply N. destruct (H (ct_map kt c) w) as (y & Y & Z).
    + apply in_map_iff. exists (c', w). cbn. now rewrite B.
    + exists y. split; [exact Y|congruence].
  - split; [discriminate|]. intros N. destruct N. apply E in A. destruct A as (l1 & l2 & A & _).
    assert (M : In (ct_map kt c, w) (map (fun cv => (ct_map kt (fst cv), snd cv)) l)) by (rewrite A; apply in_or_app; right; now left).
    apply in_map_iff in M. destruct M as ([c' w'] & M & M'). inversion M; subst. now exists c', w.
Qed.
Lemma tpm_class_classes : forall V T K KT (veqb : V -> V -> bool) (teqb : T -> T -> bool)
    (kv : V -> K) (kt : T -> KT) (cv : K -> K -> bool) (ck : KT -> KT -> bool),
  (forall x y, cv x y = true <-> x = y) -> (forall x y, ck x y = true <-> x = y) ->
  (forall x y, veqb x y = cv (kv x) (kv y)) -> (forall x y, teqb x y = ck (kt x) (kt y)) ->
  forall (l : list (ctp T * V)) (t : triple T),
  answers (map kv (tpm_get teqb (snd (insert_all (tpm_insert veqb teqb) l tpm_default)) t))
    (fun c v => In (c, v) (map (fun cv => (ct_map kt (fst cv), kv (snd cv))) l) /\ ct_matches c (triple_map kt t)).
Proof.
  intros V T K KT veqb teqb kv kt cv ck CV CK EV ET l t.
  destruct (tpm_renamed veqb cv teqb ck kv kt (fun x y => eq_sym (EV x y)) (fun x y => eq_sym (ET x y)) l) as [_ G].
  rewrite <- G. exact (tpm_get_history cv ck CV CK (map (fun cv => (ct_map kt (fst cv), kv (snd cv))) l) (triple_map kt t)).
Qed.
Lemma tpm_class_renamed : forall V W T U (veqb : V -> V -> bool) (weqb : W -> W -> bool) (teqb : T -> T -> bool) (ueqb : U -> U -> bool)
    (f : V -> W) (h : T -> U),
  (forall x y, weqb (f x) (f y) = veqb x y) -> (forall x y, ueqb (h x) (h y) = teqb x y) ->
  forall l : list (nat * (ctp T * V)),
  let m := insert_runs (tpm_insert_at veqb teqb) l tpm_default in
  let m' := insert_runs (tpm_insert_at weqb ueqb)
    (map (fun x => (fst x, (ct_map h (fst (snd x)), f (snd (snd x))))) l) tpm_default in
  fst m' = fst m /\ forall t, tpm_get ueqb (snd m') (triple_map h t) = map f (tpm_get teqb (snd m) t).
Proof.
  intros V W T U veqb weqb teqb ueqb f h fe he l. exact (tpm_runs_renamed veqb weqb teqb ueqb f h fe he l).
Qed.
