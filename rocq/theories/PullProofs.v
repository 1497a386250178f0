(** Bringing together two versions of a container. *)
From Coq Require Import List Bool Arith Lia.
Import ListNotations.
From Verif Require Import Base TripleModel QuadPatternModel SetSpec ContainerSpec IndexedSpec Machine BaseProofs
  BTreeDatasetModel BTreeDatasetProofs BTreeGraphModel BTreeGraphProofs
  IndexedDatasetModel IndexedHistoryProofs IndexedRunProofs IndexedGraphModel IndexedGraphProofs IndexedGraphRunProofs
  PatchModel PatchProofs PullModel.

Lemma same_length {X} (l m : list X) : NoDup l -> NoDup m -> (forall x, In x l <-> In x m) -> length l = length m.
Proof.
  intros A B E. apply Nat.le_antisymm; apply NoDup_incl_length; try assumption; intros x; apply E.
Qed.

Section Generic.
  Context {D X : Type} {cmp : X -> X -> comparison} (L : ord_laws cmp).
  Context {iter : D -> option (list X)} {contains : D -> X -> option bool}
    {insert remove : D -> X -> option (bool * D)}.
  Context {rep : D -> list X -> Prop}.
  Context (Hn : forall d s, rep d s -> NoDup s).
  Context (Hi : forall d s, rep d s -> iter d = Some (sorted_elements cmp s)).
  Context (Hc : forall d s x, rep d s -> contains d x = Some (mem cmp x s)).
  Context (Ha : forall d s x, rep d s ->
    exists d', insert d x = Some (negb (mem cmp x s), d') /\ rep d' (add cmp x s)).
  Context (Hd : forall d s x, rep d s ->
    exists d', remove d x = Some (mem cmp x s, d') /\ rep d' (del cmp x s)).

  Lemma mem_same x s t : (In x s <-> In x t) -> mem cmp x s = mem cmp x t.
  Proof.
    intros E. destruct (mem cmp x t) eqn:F.
    - apply (mem_true L), E, (mem_true L), F.
    - apply (mem_false L). apply (mem_false L) in F. tauto.
  Qed.

  Lemma insert_count l : forall n d s, rep d s -> NoDup l ->
    exists d', each insert l n d = Some (n + length (filter (fun x => negb (mem cmp x s)) l), d') /\
      rep d' (fold_left (fun s x => add cmp x s) l s).
  Proof.
    induction l as [|x l IH]; intros n d s R N; cbn [each filter fold_left].
    - exists d. cbn. now rewrite Nat.add_0_r.
    - inversion N as [|? ? Nx N']; subst. destruct (Ha d s x R) as (d1 & -> & R1).
      destruct (IH (if negb (mem cmp x s) then S n else n) d1 _ R1 N') as (d2 & -> & R2).
      exists d2. split; [|exact R2].
      rewrite (filter_ext_in (fun y => negb (mem cmp y (add cmp x s))) (fun y => negb (mem cmp y s))).
      + destruct (mem cmp x s); cbn; do 2 f_equal; lia.
      + intros y Hy. f_equal. apply mem_same. rewrite (in_add L). split; [|tauto].
        intros [->|H]; [contradiction|exact H].
  Qed.
  Lemma remove_count l : forall n d s, rep d s -> NoDup l ->
    exists d', each remove l n d = Some (n + length (filter (fun x => mem cmp x s) l), d') /\
      rep d' (fold_left (fun s x => del cmp x s) l s).
  Proof.
    induction l as [|x l IH]; intros n d s R N; cbn [each filter fold_left].
    - exists d. cbn. now rewrite Nat.add_0_r.
    - inversion N as [|? ? Nx N']; subst. destruct (Hd d s x R) as (d1 & -> & R1).
      destruct (IH (if mem cmp x s then S n else n) d1 _ R1 N') as (d2 & -> & R2).
      exists d2. split; [|exact R2].
      rewrite (filter_ext_in (fun y => mem cmp y (del cmp x s)) (fun y => mem cmp y s)).
      + destruct (mem cmp x s); cbn; do 2 f_equal; lia.
      + intros y Hy. apply mem_same. rewrite (in_del L). split; [tauto|].
        intros H. split; [|exact H]. intros ->. contradiction.
  Qed.

  Lemma iter_nodup d s l : rep d s -> iter d = Some l -> NoDup l.
  Proof.
    intros R E. rewrite (Hi _ _ R) in E. inv E. apply (ssorted_nodup L), (sorted_elements_sorted L). exact (Hn _ _ R).
  Qed.
  Lemma in_or (x : X) l : In x l \/ ~ In x l.
  Proof. destruct (mem cmp x l) eqn:E; [apply (mem_true L) in E|apply (mem_false L) in E]; tauto. Qed.

  (** One direction. *)
  Lemma pull_rep b sb x sx y sy lb lx ly : rep b sb -> rep x sx -> rep y sy ->
    iter b = Some lb -> iter x = Some lx -> iter y = Some ly ->
    exists n m sm, pull iter contains insert remove b x y = Some (n, m) /\ rep m sm /\
      (forall q, In q sm <-> In q lx /\ In q ly \/ ~ In q lb /\ (In q lx \/ In q ly)) /\
      exists gone new, NoDup gone /\ NoDup new /\ n = length gone + length new /\
        (forall q, In q gone <-> In q lx /\ ~ In q sm) /\ (forall q, In q new <-> In q sm /\ ~ In q lx).
  Proof.
    intros Rb Rx Ry Eb Ex Ey.
    destruct (patched L Hn Hi Hc Ha Hd b sb y sy lb ly Rb Ry Eb Ey)
      as (r & a & E & (f & Fr) & (g & Fa) & Pr & Pa & _).
    assert (Nr : NoDup r) by (rewrite Fr; apply NoDup_filter; exact (iter_nodup _ _ _ Rb Eb)).
    assert (Na : NoDup a) by (rewrite Fa; apply NoDup_filter; exact (iter_nodup _ _ _ Ry Ey)).
    assert (Ix : forall q, In q lx <-> In q sx) by (intros q; exact (iter_in Hi x sx lx q Rx Ex)).
    unfold pull. rewrite E. unfold patch.
    destruct (remove_count r 0 x sx Rx Nr) as (d1 & -> & R1).
    set (s1 := fold_left (fun s x => del cmp x s) r sx) in *.
    destruct (insert_count a (0 + length (filter (fun x => mem cmp x sx) r)) d1 s1 R1 Na) as (m & -> & R2).
    set (sm := fold_left (fun s x => add cmp x s) a s1) in *.
    assert (I : forall q, In q sm <-> In q lx /\ In q ly \/ ~ In q lb /\ (In q lx \/ In q ly)).
    { intros q. unfold sm, s1. rewrite (in_adds L), (in_dels L), Pr, Pa, <- Ix.
      pose proof (in_or q lb). pose proof (in_or q ly). tauto. }
    do 3 eexists. split; [reflexivity|]. split; [exact R2|]. split; [exact I|].
    exists (filter (fun x => mem cmp x sx) r), (filter (fun x => negb (mem cmp x s1)) a).
    split; [now apply NoDup_filter|]. split; [now apply NoDup_filter|]. split; [reflexivity|]. split; intros q.
    - rewrite filter_In, (mem_true L), Pr, I, <- Ix.
      pose proof (in_or q lb). pose proof (in_or q ly). tauto.
    - rewrite filter_In, negb_true_iff, (mem_false L), Pa, I. unfold s1. rewrite (in_dels L), Pr, <- Ix.
      pose proof (in_or q lb). pose proof (in_or q ly). tauto.
  Qed.

  Lemma pulled b sb x sx y sy lb lx ly : rep b sb -> rep x sx -> rep y sy ->
    iter b = Some lb -> iter x = Some lx -> iter y = Some ly ->
    exists n m lm, pull iter contains insert remove b x y = Some (n, m) /\ iter m = Some lm /\
      (forall q, In q lm <-> In q lx /\ In q ly \/ ~ In q lb /\ (In q lx \/ In q ly)) /\
      (exists gone new, diff iter contains x m = Some (gone, new) /\ n = length gone + length new) /\
      (exists n' m', pull iter contains insert remove b y x = Some (n', m') /\ iter m' = Some lm) /\
      (exists m', pull iter contains insert remove b m y = Some (0, m') /\ iter m' = Some lm).
  Proof.
    intros Rb Rx Ry Eb Ex Ey.
    destruct (pull_rep _ _ _ _ _ _ _ _ _ Rb Rx Ry Eb Ex Ey) as (n & m & sm & E & Rm & I & gone & new & Ng & Nn & C & Pg & Pn).
    set (lm := sorted_elements cmp sm). pose proof (Hi _ _ Rm : iter m = Some lm) as Em.
    assert (Im : forall q, In q lm <-> In q sm) by (intros q; exact (iter_in Hi m sm lm q Rm Em)).
    exists n, m, lm. split; [exact E|]. split; [exact Em|]. split; [intros q; now rewrite Im|]. split; [|split].
    - destruct (patched L Hn Hi Hc Ha Hd x sx m sm lx lm Rx Rm Ex Em)
        as (g' & n' & E' & (f & Fg) & (h & Fn) & Pg' & Pn' & _).
      exists g', n'. split; [exact E'|]. rewrite C. f_equal; apply same_length; try assumption.
      + rewrite Fg. apply NoDup_filter. exact (iter_nodup _ _ _ Rx Ex).
      + intros q. now rewrite Pg, Pg', Im.
      + rewrite Fn. apply NoDup_filter. exact (iter_nodup _ _ _ Rm Em).
      + intros q. now rewrite Pn, Pn', Im.
    - destruct (pull_rep _ _ _ _ _ _ _ _ _ Rb Ry Rx Eb Ey Ex) as (n' & m' & sm' & E' & Rm' & I' & _).
      exists n', m'. split; [exact E'|]. rewrite <- Em. apply (same_iter L Hn Hi _ _ _ _ Rm' Rm).
      intros q. rewrite I, I'. tauto.
    - destruct (pull_rep _ _ _ _ _ _ _ _ _ Rb Rm Ry Eb Em Ey)
        as (n' & m' & sm' & E' & Rm' & I' & gone' & new' & _ & _ & C' & Pg' & Pn').
      assert (S : forall q, In q sm' <-> In q sm).
      { intros q. rewrite I', Im, I. pose proof (in_or q lb). pose proof (in_or q ly). tauto. }
      assert (G : gone' = []).
      { destruct gone' as [|z ?]; [reflexivity|]. exfalso.
        destruct (proj1 (Pg' z) (or_introl eq_refl)) as [A B]. apply B, S, Im, A. }
      assert (W : new' = []).
      { destruct new' as [|z ?]; [reflexivity|]. exfalso.
        destruct (proj1 (Pn' z) (or_introl eq_refl)) as [A B]. apply B, Im, S, A. }
      exists m'. rewrite E', C', G, W. split; [reflexivity|]. rewrite <- Em.
      exact (same_iter L Hn Hi _ _ _ _ Rm' Rm S).
  Qed.
  (** What a container has. *)
  Notation has d q := (exists l, iter d = Some l /\ In q l).
  Lemma has_rep d s q : rep d s -> (has d q <-> In q s).
  Proof.
    intros R. split.
    - intros (l & E & H). now apply (iter_in Hi d s l q R E).
    - intros H. exists (sorted_elements cmp s). split; [exact (Hi _ _ R)|]. now apply in_sorted_elements.
  Qed.

  Lemma pull_all_rep b sb : rep b sb -> forall vs x sx, rep x sx -> Forall (fun y => exists sy, rep y sy) vs ->
    exists m sm, pull_all iter contains insert remove b vs x = Some m /\ rep m sm /\
      forall q, In q sm <-> In q sb /\ In q sx /\ (forall y, In y vs -> has y q) \/
                            ~ In q sb /\ (In q sx \/ exists y, In y vs /\ has y q).
  Proof.
    intros Rb. induction vs as [|y vs IH]; intros x sx Rx F; cbn [pull_all].
    - exists x, sx. split; [reflexivity|]. split; [exact Rx|]. intros q. cbn [In].
      pose proof (in_or q sb). split; [intros H'|intros [(_ & H' & _)|(_ & [H'|(y & [] & _)])]; exact H'].
      destruct H as [H|H]; [left|right]; (split; [exact H|]); [split; [exact H'|tauto]|now left].
    - inversion F as [|? ? (sy & Ry) F']; subst.
      destruct (pull_rep b sb x sx y sy _ _ _ Rb Rx Ry (Hi _ _ Rb) (Hi _ _ Rx) (Hi _ _ Ry))
        as (k & m & sm & -> & Rm & I & _).
      destruct (IH m sm Rm F') as (m' & sm' & E & Rm' & I').
      exists m', sm'. split; [exact E|]. split; [exact Rm'|]. intros q. rewrite I', I, !in_sorted_elements.
      pose proof (has_rep y sy q Ry) as Y. pose proof (in_or q sb) as B. cbn [In]. split.
      + intros [(H1 & H2 & H3)|(H1 & H2)].
        * left. split; [exact H1|]. split; [tauto|]. intros z [<-|Hz]; [apply Y; tauto|now apply H3].
        * right. split; [exact H1|]. destruct H2 as [[[H2 H3]|[_ [H2|H2]]]|(z & Hz & H2)].
          -- now left.
          -- now left.
          -- right. exists y. split; [now left|now apply Y].
          -- right. exists z. split; [now right|exact H2].
      + intros [(H1 & H2 & H3)|(H1 & H2)].
        * left. split; [exact H1|]. split; [left; split; [exact H2|apply Y, H3; now left]|].
          intros z Hz. apply H3. now right.
        * right. split; [exact H1|]. destruct H2 as [H2|(z & [<-|Hz] & H2)].
          -- left. right. tauto.
          -- left. right. split; [exact H1|right; now apply Y].
          -- right. exists z. split; [exact Hz|exact H2].
  Qed.

  Lemma pulled_all b sb x sx vs lb lx : rep b sb -> rep x sx -> Forall (fun y => exists sy, rep y sy) vs ->
    iter b = Some lb -> iter x = Some lx ->
    exists m lm, pull_all iter contains insert remove b vs x = Some m /\ iter m = Some lm /\
      (forall q, In q lm <-> In q lb /\ In q lx /\ (forall y, In y vs -> has y q) \/
                             ~ In q lb /\ (In q lx \/ exists y, In y vs /\ has y q)) /\
      (forall vs', (forall y, In y vs' <-> In y vs) ->
         exists m', pull_all iter contains insert remove b vs' x = Some m' /\ iter m' = Some lm).
  Proof.
    intros Rb Rx F Eb Ex.
    destruct (pull_all_rep b sb Rb vs x sx Rx F) as (m & sm & E & Rm & I).
    assert (Ib : forall q, In q lb <-> In q sb) by (intros q; exact (iter_in Hi b sb lb q Rb Eb)).
    assert (Ix : forall q, In q lx <-> In q sx) by (intros q; exact (iter_in Hi x sx lx q Rx Ex)).
    exists m, (sorted_elements cmp sm). split; [exact E|]. split; [exact (Hi _ _ Rm)|]. split.
    - intros q. rewrite in_sorted_elements, Ib, Ix. apply I.
    - intros vs' V. assert (F' : Forall (fun y => exists sy, rep y sy) vs').
      { apply Forall_forall. intros y Hy. apply V in Hy. rewrite Forall_forall in F. now apply F. }
      destruct (pull_all_rep b sb Rb vs' x sx Rx F') as (m' & sm' & E' & Rm' & I').
      exists m'. split; [exact E'|]. rewrite <- (Hi _ _ Rm). apply (same_iter L Hn Hi _ _ _ _ Rm' Rm).
      intros q. rewrite I, I'. split.
      + intros [(H1 & H2 & H3)|(H1 & H2)]; [left|right]; (split; [exact H1|]).
        * split; [exact H2|]. intros y Hy. apply H3. now apply V.
        * destruct H2 as [H2|(y & Hy & H2)]; [now left|right]. exists y. split; [now apply V|exact H2].
      + intros [(H1 & H2 & H3)|(H1 & H2)]; [left|right]; (split; [exact H1|]).
        * split; [exact H2|]. intros y Hy. apply H3. now apply V.
        * destruct H2 as [H2|(y & Hy & H2)]; [now left|right]. exists y. split; [now apply V|exact H2].
  Qed.
End Generic.

(** ** The four containers *)
Section Containers.
  Context {R : Type} {cmp : R -> R -> comparison} (L : ord_laws cmp) {keep : bool}.
  Notation qcmp := (quad_cmp cmp).
  Notation tcmp := (triple_cmp cmp).
  Let LQ : ord_laws qcmp := quad_cmp_laws cmp L.
  Let LT : ord_laws tcmp := triple_cmp_laws cmp L.

  Lemma bd_pulled ops0 ws b lb ops1 xs x lx ops2 ys y ly :
    let pull := pull bd_iter (bd_contains cmp) (bd_insert cmp keep) (bd_remove cmp) in
    run (bd_step cmp keep) bd_new ops0 = Some (ws, b) -> bd_iter b = Some lb ->
    run (bd_step cmp keep) bd_new ops1 = Some (xs, x) -> bd_iter x = Some lx ->
    run (bd_step cmp keep) bd_new ops2 = Some (ys, y) -> bd_iter y = Some ly ->
    exists n m lm, pull b x y = Some (n, m) /\ bd_iter m = Some lm /\
      (forall q, In q lm <-> In q lx /\ In q ly \/ ~ In q lb /\ (In q lx \/ In q ly)) /\
      (exists gone new, diff bd_iter (bd_contains cmp) x m = Some (gone, new) /\ n = length gone + length new) /\
      (exists n' m', pull b y x = Some (n', m') /\ bd_iter m' = Some lm) /\
      (exists m', pull b m y = Some (0, m') /\ bd_iter m' = Some lm).
  Proof.
    intros pl H0 Eb H1 Ex H2 Ey. apply (bd_run_rep_new L) in H0, H1, H2.
    eapply (pulled LQ (rep := bd_rep (cmp:=cmp))); eauto.
    - intros d s [N _]; exact N.
    - exact (bd_iter_rep).
    - intros d s z [_ (vs & I)]. now rewrite (bd_contains_spec L _ _ _ _ I), (mem_sorted L).
    - intros d s z. exact (bd_insert_rep L keep d s z).
    - intros d s z. exact (bd_remove_rep L d s z).
  Qed.

  Lemma bg_pulled ops0 ws b lb ops1 xs x lx ops2 ys y ly :
    let pull := pull bg_iter (bg_contains cmp) (bg_insert cmp keep) (bg_remove cmp) in
    run (bg_step cmp keep) bg_new ops0 = Some (ws, b) -> bg_iter b = Some lb ->
    run (bg_step cmp keep) bg_new ops1 = Some (xs, x) -> bg_iter x = Some lx ->
    run (bg_step cmp keep) bg_new ops2 = Some (ys, y) -> bg_iter y = Some ly ->
    exists n m lm, pull b x y = Some (n, m) /\ bg_iter m = Some lm /\
      (forall q, In q lm <-> In q lx /\ In q ly \/ ~ In q lb /\ (In q lx \/ In q ly)) /\
      (exists gone new, diff bg_iter (bg_contains cmp) x m = Some (gone, new) /\ n = length gone + length new) /\
      (exists n' m', pull b y x = Some (n', m') /\ bg_iter m' = Some lm) /\
      (exists m', pull b m y = Some (0, m') /\ bg_iter m' = Some lm).
  Proof.
    intros pl H0 Eb H1 Ex H2 Ey. apply (bg_run_rep_new L) in H0, H1, H2.
    eapply (pulled LT (rep := bg_rep (cmp:=cmp))); eauto.
    - intros d s [N _]; exact N.
    - intros d s. exact (bg_iter_rep d s).
    - intros d s z. exact (bg_contains_rep L d s z).
    - intros d s z. exact (bg_insert_rep L keep d s z).
    - intros d s z. exact (bg_remove_rep L d s z).
  Qed.

  Lemma id_pulled ops00 ops0 ws b lb ops01 ops1 xs x lx ops02 ops2 ys y ly :
    let pull := pull id_iter (id_contains cmp) (id_insert cmp keep) (id_remove cmp) in
    id_reached cmp keep ops00 ops0 ws b -> id_iter b = Some lb ->
    id_reached cmp keep ops01 ops1 xs x -> id_iter x = Some lx ->
    id_reached cmp keep ops02 ops2 ys y -> id_iter y = Some ly ->
    exists n m lm, pull b x y = Some (n, m) /\ id_iter m = Some lm /\
      (forall q, In q lm <-> In q lx /\ In q ly \/ ~ In q lb /\ (In q lx \/ In q ly)) /\
      (exists gone new, diff id_iter (id_contains cmp) x m = Some (gone, new) /\ n = length gone + length new) /\
      (exists n' m', pull b y x = Some (n', m') /\ id_iter m' = Some lm) /\
      (exists m', pull b m y = Some (0, m') /\ id_iter m' = Some lm).
  Proof.
    intros pl H0 Eb H1 Ex H2 Ey. apply (reached_state L) in H0 as [H0 _], H1 as [H1 _], H2 as [H2 _].
    eapply (pulled LQ (rep := id_holds (cmp:=cmp))); [..|exact Eb|exact Ex|exact Ey].
    - intros d s (s0 & K & n & l & H & ->). apply (is_rep _ _ _ _ _ H).
    - intros d s (s0 & K & n & l & H & ->). exact (id_iter_rep _ _ (is_rep _ _ _ _ _ H)).
    - intros d s z (s0 & K & n & l & H & ->). exact (id_contains_rep L _ _ z (is_rep _ _ _ _ _ H)).
    - intros d s z H. destruct (id_holds_step L (keep:=keep) d s (Insert z) H) as (d' & E & H'). cbn in E, H'.
      destruct (id_insert cmp keep d z) as [[u d1]|]; [|discriminate]. cbn in E. inv E. eauto.
    - intros d s z H. destruct (id_holds_step L (keep:=keep) d s (Remove z) H) as (d' & E & H'). cbn in E, H'.
      destruct (id_remove cmp d z) as [[u d1]|]; [|discriminate]. cbn in E. inv E. eauto.
    - do 4 eexists. split; [exact H0|reflexivity].
    - do 4 eexists. split; [exact H1|reflexivity].
    - do 4 eexists. split; [exact H2|reflexivity].
  Qed.

  Lemma ig_pulled ops00 ops0 b lb ops01 ops1 x lx ops02 ops2 y ly :
    let pull := pull ig_iter (ig_contains cmp) (ig_insert cmp keep) (ig_remove cmp) in
    ig_reached cmp keep ops00 ops0 b -> ig_iter b = Some lb ->
    ig_reached cmp keep ops01 ops1 x -> ig_iter x = Some lx ->
    ig_reached cmp keep ops02 ops2 y -> ig_iter y = Some ly ->
    exists n m lm, pull b x y = Some (n, m) /\ ig_iter m = Some lm /\
      (forall q, In q lm <-> In q lx /\ In q ly \/ ~ In q lb /\ (In q lx \/ In q ly)) /\
      (exists gone new, diff ig_iter (ig_contains cmp) x m = Some (gone, new) /\ n = length gone + length new) /\
      (exists n' m', pull b y x = Some (n', m') /\ ig_iter m' = Some lm) /\
      (exists m', pull b m y = Some (0, m') /\ ig_iter m' = Some lm).
  Proof.
    intros pl H0 Eb H1 Ex H2 Ey. apply (greached L keep) in H0, H1, H2.
    eapply (pulled LT (rep := ig_holds (cmp:=cmp))); [..|exact Eb|exact Ex|exact Ey].
    - intros d s (s0 & K & n & l & H & ->). exact (grep_nodup _ _ (gstate_rep _ _ _ _ _ H)).
    - intros d s (s0 & K & n & l & H & ->). exact (grep_iter _ _ (gstate_rep _ _ _ _ _ H)).
    - intros d s z H. destruct (ig_holds_step L (keep:=keep) d s (Contains z) H) as (d' & E & H'). cbn in E, H'.
      destruct (ig_contains cmp d z) as [u|]; [|discriminate]. cbn in E. inv E. eauto.
    - intros d s z H. destruct (ig_holds_step L (keep:=keep) d s (Insert z) H) as (d' & E & H'). cbn in E, H'.
      destruct (ig_insert cmp keep d z) as [[u d1]|]; [|discriminate]. cbn in E. inv E. eauto.
    - intros d s z H. destruct (ig_holds_step L (keep:=keep) d s (Remove z) H) as (d' & E & H'). cbn in E, H'.
      destruct (ig_remove cmp d z) as [[u d1]|]; [|discriminate]. cbn in E. inv E. eauto.
    - do 4 eexists. split; [exact H0|reflexivity].
    - do 4 eexists. split; [exact H1|reflexivity].
    - do 4 eexists. split; [exact H2|reflexivity].
  Qed.

  Lemma bd_pulled_all ops0 ws b lb ops1 xs x lx vs :
    let pull_all := pull_all bd_iter (bd_contains cmp) (bd_insert cmp keep) (bd_remove cmp) in
    let has y q := exists l, bd_iter y = Some l /\ In q l in
    run (bd_step cmp keep) bd_new ops0 = Some (ws, b) -> bd_iter b = Some lb ->
    run (bd_step cmp keep) bd_new ops1 = Some (xs, x) -> bd_iter x = Some lx ->
    Forall (fun y => exists ops ys, run (bd_step cmp keep) bd_new ops = Some (ys, y)) vs ->
    exists m lm, pull_all b vs x = Some m /\ bd_iter m = Some lm /\
      (forall q, In q lm <-> In q lb /\ In q lx /\ (forall y, In y vs -> has y q) \/
                             ~ In q lb /\ (In q lx \/ exists y, In y vs /\ has y q)) /\
      (forall vs', (forall y, In y vs' <-> In y vs) ->
         exists m', pull_all b vs' x = Some m' /\ bd_iter m' = Some lm).
  Proof.
    intros pl has H0 Eb H1 Ex F. apply (bd_run_rep_new L) in H0, H1.
    eapply (pulled_all LQ (rep := bd_rep (cmp:=cmp))); [..|exact H0|exact H1| |exact Eb|exact Ex].
    - intros d s [N _]; exact N.
    - exact (bd_iter_rep).
    - intros d s z [_ (vv & I)]. now rewrite (bd_contains_spec L _ _ _ _ I), (mem_sorted L).
    - intros d s z. exact (bd_insert_rep L keep d s z).
    - intros d s z. exact (bd_remove_rep L d s z).
    - eapply Forall_impl; [|exact F]. intros y (ops & ys & H). apply (bd_run_rep_new L) in H. eauto.
  Qed.

  Lemma bg_pulled_all ops0 ws b lb ops1 xs x lx vs :
    let pull_all := pull_all bg_iter (bg_contains cmp) (bg_insert cmp keep) (bg_remove cmp) in
    let has y q := exists l, bg_iter y = Some l /\ In q l in
    run (bg_step cmp keep) bg_new ops0 = Some (ws, b) -> bg_iter b = Some lb ->
    run (bg_step cmp keep) bg_new ops1 = Some (xs, x) -> bg_iter x = Some lx ->
    Forall (fun y => exists ops ys, run (bg_step cmp keep) bg_new ops = Some (ys, y)) vs ->
    exists m lm, pull_all b vs x = Some m /\ bg_iter m = Some lm /\
      (forall q, In q lm <-> In q lb /\ In q lx /\ (forall y, In y vs -> has y q) \/
                             ~ In q lb /\ (In q lx \/ exists y, In y vs /\ has y q)) /\
      (forall vs', (forall y, In y vs' <-> In y vs) ->
         exists m', pull_all b vs' x = Some m' /\ bg_iter m' = Some lm).
  Proof.
    intros pl has H0 Eb H1 Ex F. apply (bg_run_rep_new L) in H0, H1.
    eapply (pulled_all LT (rep := bg_rep (cmp:=cmp))); [..|exact H0|exact H1| |exact Eb|exact Ex].
    - intros d s [N _]; exact N.
    - intros d s. exact (bg_iter_rep d s).
    - intros d s z. exact (bg_contains_rep L d s z).
    - intros d s z. exact (bg_insert_rep L keep d s z).
    - intros d s z. exact (bg_remove_rep L d s z).
    - eapply Forall_impl; [|exact F]. intros y (ops & ys & H). apply (bg_run_rep_new L) in H. eauto.
  Qed.

  Lemma id_pulled_all ops00 ops0 ws b lb ops01 ops1 xs x lx vs :
    let pull_all := pull_all id_iter (id_contains cmp) (id_insert cmp keep) (id_remove cmp) in
    let has y q := exists l, id_iter y = Some l /\ In q l in
    id_reached cmp keep ops00 ops0 ws b -> id_iter b = Some lb ->
    id_reached cmp keep ops01 ops1 xs x -> id_iter x = Some lx ->
    Forall (fun y => exists ops0 ops ys, id_reached cmp keep ops0 ops ys y) vs ->
    exists m lm, pull_all b vs x = Some m /\ id_iter m = Some lm /\
      (forall q, In q lm <-> In q lb /\ In q lx /\ (forall y, In y vs -> has y q) \/
                             ~ In q lb /\ (In q lx \/ exists y, In y vs /\ has y q)) /\
      (forall vs', (forall y, In y vs' <-> In y vs) ->
         exists m', pull_all b vs' x = Some m' /\ id_iter m' = Some lm).
  Proof.
    intros pl has H0 Eb H1 Ex F. apply (reached_state L) in H0 as [H0 _], H1 as [H1 _].
    eapply (pulled_all LQ (rep := id_holds (cmp:=cmp))); [..|exact Eb|exact Ex].
    - intros d s (s0 & K & n & l & H & ->). apply (is_rep _ _ _ _ _ H).
    - intros d s (s0 & K & n & l & H & ->). exact (id_iter_rep _ _ (is_rep _ _ _ _ _ H)).
    - intros d s z (s0 & K & n & l & H & ->). exact (id_contains_rep L _ _ z (is_rep _ _ _ _ _ H)).
    - intros d s z H. destruct (id_holds_step L (keep:=keep) d s (Insert z) H) as (d' & E & H'). cbn in E, H'.
      destruct (id_insert cmp keep d z) as [[u d1]|]; [|discriminate]. cbn in E. inv E. eauto.
    - intros d s z H. destruct (id_holds_step L (keep:=keep) d s (Remove z) H) as (d' & E & H'). cbn in E, H'.
      destruct (id_remove cmp d z) as [[u d1]|]; [|discriminate]. cbn in E. inv E. eauto.
    - do 4 eexists. split; [exact H0|reflexivity].
    - do 4 eexists. split; [exact H1|reflexivity].
    - eapply Forall_impl; [|exact F]. intros y (ops02 & ops2 & ys & H). apply (reached_state L) in H as [H _].
      do 5 eexists. split; [exact H|reflexivity].
  Qed.

  Lemma ig_pulled_all ops00 ops0 b lb ops01 ops1 x lx vs :
    let pull_all := pull_all ig_iter (ig_contains cmp) (ig_insert cmp keep) (ig_remove cmp) in
    let has y q := exists l, ig_iter y = Some l /\ In q l in
    ig_reached cmp keep ops00 ops0 b -> ig_iter b = Some lb ->
    ig_reached cmp keep ops01 ops1 x -> ig_iter x = Some lx ->
    Forall (fun y => exists ops0 ops, ig_reached cmp keep ops0 ops y) vs ->
    exists m lm, pull_all b vs x = Some m /\ ig_iter m = Some lm /\
      (forall q, In q lm <-> In q lb /\ In q lx /\ (forall y, In y vs -> has y q) \/
                             ~ In q lb /\ (In q lx \/ exists y, In y vs /\ has y q)) /\
      (forall vs', (forall y, In y vs' <-> In y vs) ->
         exists m', pull_all b vs' x = Some m' /\ ig_iter m' = Some lm).
  Proof.
    intros pl has H0 Eb H1 Ex F. apply (greached L keep) in H0, H1.
    eapply (pulled_all LT (rep := ig_holds (cmp:=cmp))); [..|exact Eb|exact Ex].
    - intros d s (s0 & K & n & l & H & ->). exact (grep_nodup _ _ (gstate_rep _ _ _ _ _ H)).
    - intros d s (s0 & K & n & l & H & ->). exact (grep_iter _ _ (gstate_rep _ _ _ _ _ H)).
    - intros d s z H. destruct (ig_holds_step L (keep:=keep) d s (Contains z) H) as (d' & E & H'). cbn in E, H'.
      destruct (ig_contains cmp d z) as [u|]; [|discriminate]. cbn in E. inv E. eauto.
    - intros d s z H. destruct (ig_holds_step L (keep:=keep) d s (Insert z) H) as (d' & E & H'). cbn in E, H'.
      destruct (ig_insert cmp keep d z) as [[u d1]|]; [|discriminate]. cbn in E. inv E. eauto.
    - intros d s z H. destruct (ig_holds_step L (keep:=keep) d s (Remove z) H) as (d' & E & H'). cbn in E, H'.
      destruct (ig_remove cmp d z) as [[u d1]|]; [|discriminate]. cbn in E. inv E. eauto.
    - do 4 eexists. split; [exact H0|reflexivity].
    - do 4 eexists. split; [exact H1|reflexivity].
    - eapply Forall_impl; [|exact F]. intros y (ops02 & ops2 & H). apply (greached L keep) in H.
      do 5 eexists. split; [exact H|reflexivity].
  Qed.
End Containers.

(** Each pulls the changes of the other: equal elements, other answers. *)
Lemma pull_queries : forall keep, exists ops xs x n m n' m' c q,
  let pull := pull id_iter (id_contains Nat.compare) (id_insert Nat.compare keep) (id_remove Nat.compare) in
  id_reached Nat.compare keep [] ops xs x /\
  pull id_new x id_new = Some (n, m) /\ pull id_new id_new x = Some (n', m') /\ id_iter m = id_iter m' /\
  forall spare, id_pattern_matching Nat.compare m spare c = Some [q] /\
    id_pattern_matching Nat.compare m' spare c = Some [].
Proof.
  intros keep. destruct (patch_queries keep) as (ops & xs & b & a & d & c & q & H & E & P & I & Q).
  exists ops, xs, b, 0, b, (length a), d, c, q. intros pl. split; [exact H|].
  split; [reflexivity|]. split; [unfold pl, pull; now rewrite E|]. split; [now symmetry|exact Q].
Qed.
