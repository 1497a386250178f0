(** Proofs for C69. *)
From Coq Require Import List NArith Bool Lia.
Import ListNotations.
From Verif Require Import Base BaseProofs TextModel BlankIdModel BlankIdSpec BlankIdProofs DisplayModel TermModel
  TripleModel TriplePatternModel SetSpec ContainerSpec Machine BTreeDatasetModel BTreeDatasetProofs
  BTreeGraphModel BTreeGraphProofs IndexedDatasetModel IndexedRunProofs IndexedGraphModel
  IndexedGraphRunProofs CrashModel SerdeModel SerdeSpec SerdeProofs BinModel BinSpec.
Open Scope panic_scope.

(** ** Texts *)
Lemma decodes_text (check : text -> option text) (ok : text -> Prop) :
  (forall s t, check s = Some t <-> t = s /\ ok s) ->
  decodes (fun i => '(s, r) <- read_string i ;; b <- check s ;; Some (b, r)) (text_of ok).
Proof.
  intros H i x r; unfold text_of; split.
  - destruct i as [|[| | |s] i]; cbn; try discriminate.
    destruct (check s) as [t|] eqn:E; cbn; [|discriminate]; intros K; injection K as <- <-.
    apply H in E as [-> E]; exists [IText s]; auto.
  - intros (b & -> & -> & K); cbn.
    now rewrite (proj2 (H x x) (conj eq_refl K)).
Qed.

Lemma decodes_ext {A} (r1 r2 : reader A) lay :
  (forall i, r1 i = r2 i) -> decodes r1 lay -> decodes r2 lay.
Proof. intros E H i x r; rewrite <- E; apply H. Qed.

Lemma read_blank_exact : decodes read_blank (text_of (fun b => BLANK_NODE_LABEL b /\ ~ In DOT b)).
Proof.
  apply (decodes_text blank_new); intros s t.
  assert (D : de_blank (VStr s) = blank_new s) by reflexivity.
  rewrite <- D, de_blank_exact; unfold ser_blank; split.
  - intros [E H]; injection E as <-; auto.
  - intros [-> H]; auto.
Qed.

Lemma read_iri_exact ok : decodes (read_iri ok) (text_of (fun i => ok i = true)).
Proof.
  eapply decodes_ext; [|apply (decodes_text (fun s => if ok s then Some s else None))].
  - intros i; unfold read_iri; destruct (read_string i) as [[s r]|]; cbn; [|reflexivity].
    now destruct (ok s).
  - intros s t; destruct (ok s); split; intros H; try discriminate; [injection H as <-; auto| |destruct H as [_ H]; discriminate].
    destruct H as [-> _]; reflexivity.
Qed.

Lemma read_tag_exact ok : decodes (read_tag ok) (text_of (fun i => ok i = true)).
Proof. exact (read_iri_exact ok). Qed.

Section Terms.
  Context (iri_ok tag_ok : text -> bool).
  Local Notation iok := (fun i => iri_ok i = true).
  Local Notation tok := (fun t => tag_ok t = true).

  Lemma read_type_exact : decodes (read_ltype iri_ok tag_ok) (type_items iok tok).
  Proof.
    intros i x r; split.
    - destruct i as [|[|[|[|?]]| |] i]; cbn [read_ltype]; try discriminate.
      + destruct (read_iri iri_ok i) as [[s r']|] eqn:E; cbn; [|discriminate].
        intros K; injection K as <- <-; apply read_iri_exact in E as (b & -> & -> & E).
        exists [IVariant 0; IText s]; split; [reflexivity|now constructor].
      + destruct (read_tag tag_ok i) as [[s r']|] eqn:E; cbn; [|discriminate].
        intros K; injection K as <- <-; apply read_tag_exact in E as (b & -> & -> & E).
        exists [IVariant 1; IText s]; split; [reflexivity|now constructor].
    - intros (b & -> & H); destruct H as [s H|s H]; cbn; now rewrite H.
  Qed.

  Lemma read_literal_exact : decodes (read_literal iri_ok tag_ok) (literal_items iok tok).
  Proof.
    intros i x r; split.
    - destruct i as [|[| | |s] i]; cbn; try discriminate.
      destruct (read_ltype iri_ok tag_ok i) as [[t r']|] eqn:E; cbn; [|discriminate].
      intros K; injection K as <- <-; apply read_type_exact in E as (b & -> & E).
      exists (IText s :: b); split; [reflexivity|now constructor].
    - intros (b & -> & H); destruct H as [s b t H]; cbn.
      now rewrite (proj2 (read_type_exact (b ++ r) t r)) by eauto.
  Qed.

  Lemma write_type_items t : ltype_ok iok tok t -> type_items iok tok (write_ltype t) t.
  Proof. intros [H K]; destruct t; constructor; auto. Qed.
  Lemma write_literal_items l : literal_ok iok tok l -> literal_items iok tok (write_literal l) l.
  Proof. intros H; destruct l as [s t]; constructor; now apply write_type_items. Qed.

  (** Nothing is ever read as a term. *)
  Lemma read_term_never i : read_term iri_ok tag_ok i = None.
  Proof. reflexivity. Qed.
  Lemma read_local_never i : read_local iri_ok tag_ok i = None.
  Proof. reflexivity. Qed.
End Terms.

(** ** Triples, quads, pattern elements *)
Lemma read_triple_exact {S P O} (rs : reader S) (rp : reader P) (ro : reader O) ls lp lo :
  decodes rs ls -> decodes rp lp -> decodes ro lo ->
  decodes (read_triple rs rp ro) (triple_items ls lp lo).
Proof.
  intros Hs Hp Ho i x r; unfold read_triple; split.
  - destruct (rs i) as [[s i1]|] eqn:E1; cbn; [|discriminate].
    destruct (rp i1) as [[p i2]|] eqn:E2; cbn; [|discriminate].
    destruct (ro i2) as [[o i3]|] eqn:E3; cbn; [|discriminate].
    intros K; injection K as <- <-.
    apply Hs in E1 as (a & -> & E1); apply Hp in E2 as (b & -> & E2); apply Ho in E3 as (c & -> & E3).
    exists (a ++ b ++ c); split; [now rewrite <- !app_assoc|now constructor].
  - intros (b & -> & H); destruct H as [a b c s p o Ha Hb Hc]; rewrite <- !app_assoc.
    rewrite (proj2 (Hs (a ++ b ++ c ++ r) s (b ++ c ++ r))) by eauto; cbn.
    rewrite (proj2 (Hp (b ++ c ++ r) p (c ++ r))) by eauto; cbn.
    now rewrite (proj2 (Ho (c ++ r) o r)) by eauto.
Qed.

Lemma read_quad_exact {S P O G} (rs : reader S) (rp : reader P) (ro : reader O) (rg : reader G) ls lp lo lg :
  decodes rs ls -> decodes rp lp -> decodes ro lo -> decodes rg lg ->
  decodes (read_quad rs rp ro rg) (quad_items ls lp lo lg).
Proof.
  intros Hs Hp Ho Hg i x r; unfold read_quad; split.
  - destruct (rs i) as [[s i1]|] eqn:E1; cbn; [|discriminate].
    destruct (rp i1) as [[p i2]|] eqn:E2; cbn; [|discriminate].
    destruct (ro i2) as [[o i3]|] eqn:E3; cbn; [|discriminate].
    apply Hs in E1 as (a & -> & E1); apply Hp in E2 as (b & -> & E2); apply Ho in E3 as (c & -> & E3).
    destruct i3 as [|[| |[|]|] i3]; cbn; try discriminate.
    + destruct (rg i3) as [[g i4]|] eqn:E4; cbn; [|discriminate].
      intros K; injection K as <- <-; apply Hg in E4 as (d & -> & E4).
      exists (a ++ b ++ c ++ IOption true :: d); split; [now rewrite <- !app_assoc|now constructor].
    + intros K; injection K as <- <-.
      exists (a ++ b ++ c ++ [IOption false]); split; [now rewrite <- !app_assoc|now constructor].
  - intros (b & -> & H).
    destruct H as [a b c s p o Ha Hb Hc|a b c d s p o g Ha Hb Hc Hd]; rewrite <- !app_assoc; cbn [app].
    + rewrite (proj2 (Hs (a ++ b ++ c ++ IOption false :: r) s (b ++ c ++ IOption false :: r))) by eauto; cbn.
      rewrite (proj2 (Hp (b ++ c ++ IOption false :: r) p (c ++ IOption false :: r))) by eauto; cbn.
      now rewrite (proj2 (Ho (c ++ IOption false :: r) o (IOption false :: r))) by eauto.
    + set (z := IOption true :: d ++ r).
      rewrite (proj2 (Hs (a ++ b ++ c ++ z) s (b ++ c ++ z))) by eauto; cbn.
      rewrite (proj2 (Hp (b ++ c ++ z) p (c ++ z))) by eauto; cbn.
      rewrite (proj2 (Ho (c ++ z) o z)) by eauto; cbn.
      now rewrite (proj2 (Hg (d ++ r) g r)) by eauto.
Qed.

Lemma read_rv_exact {T X} (rt : reader T) (rx : reader X) lt lx :
  decodes rt lt -> decodes rx lx -> decodes (read_rv rt rx) (rv_items lt lx).
Proof.
  intros Ht Hx i x r; split.
  - destruct i as [|[|[|[|?]]| |] i]; cbn; try discriminate.
    + destruct (rt i) as [[t r']|] eqn:E; cbn; [|discriminate]; intros K; injection K as <- <-.
      apply Ht in E as (b & -> & E); exists (IVariant 0 :: b); split; [reflexivity|now constructor].
    + destruct (rx i) as [[t r']|] eqn:E; cbn; [|discriminate]; intros K; injection K as <- <-.
      apply Hx in E as (b & -> & E); exists (IVariant 1 :: b); split; [reflexivity|now constructor].
  - intros (b & -> & H); destruct H as [b t H|b y H]; cbn.
    + now rewrite (proj2 (Ht (b ++ r) t r)) by eauto.
    + now rewrite (proj2 (Hx (b ++ r) y r)) by eauto.
Qed.

Lemma write_triple_items {S P O} (ws : S -> list item) (wp : P -> list item) (wo : O -> list item)
    (ls : layout S) (lp : layout P) (lo : layout O) t :
  ls (ws (t_s t)) (t_s t) -> lp (wp (t_p t)) (t_p t) -> lo (wo (t_o t)) (t_o t) ->
  triple_items ls lp lo (write_triple ws wp wo t) t.
Proof. destruct t; now constructor. Qed.

Lemma write_quad_items {S P O G} (ws : S -> list item) (wp : P -> list item) (wo : O -> list item)
    (wg : G -> list item) (ls : layout S) (lp : layout P) (lo : layout O) (lg : layout G) q :
  ls (ws (q_s q)) (q_s q) -> lp (wp (q_p q)) (q_p q) -> lo (wo (q_o q)) (q_o q) ->
  (forall g, q_g q = Some g -> lg (wg g) g) ->
  quad_items ls lp lo lg (write_quad ws wp wo wg q) q.
Proof. destruct q as [s p o [g|]]; cbn; intros; constructor; auto. Qed.

Lemma write_rv_items {T X} (wt : T -> list item) (wx : X -> list item) (lt : layout T) (lx : layout X) r :
  (forall t, r = Res t -> lt (wt t) t) -> (forall x, r = Var x -> lx (wx x) x) ->
  rv_items lt lx (write_rv wt wx r) r.
Proof. destruct r; intros H K; constructor; auto. Qed.

(** ** Containers *)
Section Seq.
  Context {C T : Type} (insert : C -> T -> option (bool * C)) (write : T -> list item) (read : reader T).
  Context (extend : C -> list T -> option C).
  Context (extend_nil : forall c, extend c [] = Some c).
  Context (extend_cons : forall c t r, extend c (t :: r) = ('(_, c') <- insert c t ;; extend c' r)).

  Lemma read_written l rest : forall c c',
    (forall t, In t l -> forall r, read (write t ++ r) = Some (t, r)) ->
    extend c l = Some c' ->
    read_elements insert read (length l) c (flat_map write l ++ rest) = Some (Some (c', rest)).
  Proof.
    induction l as [|t l IH]; intros c c' H E; cbn [length flat_map read_elements].
    - rewrite extend_nil in E; now injection E as <-.
    - rewrite <- app_assoc, H by now left.
      rewrite extend_cons in E; destruct (insert c t) as [[b c1]|]; cbn in *; [|discriminate].
      apply IH; [|exact E]; intros; apply H; now right.
  Qed.

  (** Any input. *)
  Lemma read_elements_input lay : decodes read lay ->
    forall n c i, (forall ts, extend c ts <> None) ->
    (exists bs ts c' r, n = length ts /\ i = concat bs ++ r /\ Forall2 lay bs ts /\
       extend c ts = Some c' /\ read_elements insert read n c i = Some (Some (c', r))) \/
    (read_elements insert read n c i = Some None /\
     ~ exists bs ts r, n = length ts /\ i = concat bs ++ r /\ Forall2 lay bs ts).
  Proof.
    intros HD; induction n as [|n IH]; intros c i HT; cbn [read_elements].
    - left; exists [], [], c, i; rewrite extend_nil; repeat split; constructor.
    - destruct (read i) as [[t i1]|] eqn:E.
      + destruct (insert c t) as [[b c1]|] eqn:EI; cbn.
        2: { exfalso; apply (HT [t]); now rewrite extend_cons, EI. }
        assert (HT1 : forall ts, extend c1 ts <> None).
        { intros ts; specialize (HT (t :: ts)); now rewrite extend_cons, EI in HT. }
        destruct (IH c1 i1 HT1) as [(bs & ts & c' & r & -> & -> & F & X & Y)|[Y N]].
        * left; apply HD in E as (b0 & -> & E); exists (b0 :: bs), (t :: ts), c', r.
          cbn; rewrite extend_cons, EI, <- app_assoc; cbn; repeat split; auto.
        * right; split; [exact Y|]; intros (bs & [|t' ts] & r & L & EqI & F); [discriminate|].
          inversion F as [|b0 t0 bs' ts' Fb Fr]; subst.
          cbn in E; rewrite <- app_assoc in E.
          rewrite (proj2 (HD (b0 ++ concat bs' ++ r) t' (concat bs' ++ r))) in E by eauto.
          injection E as <- <-; apply N; exists bs', ts, r; cbn in L; injection L as ->; auto.
      + right; split; [reflexivity|]; intros (bs & [|t' ts] & r & L & -> & F); [discriminate|].
        inversion F as [|b0 t0 bs' ts' Fb Fr]; subst.
        cbn in E; rewrite <- app_assoc in E.
        rewrite (proj2 (HD (b0 ++ concat bs' ++ r) t' (concat bs' ++ r))) in E by eauto; discriminate.
  Qed.

  Lemma read_seq_input lay new i : decodes read lay ->
    (forall ts, extend new ts <> None) ->
    (exists b ts c r, i = b ++ r /\ seq_items lay b ts /\
       extend new ts = Some c /\ read_seq insert read new i = Some (Some (c, r))) \/
    (read_seq insert read new i = Some None /\
     ~ exists b ts r, i = b ++ r /\ seq_items lay b ts).
  Proof.
    intros HD HT; destruct i as [|[n| | |] i]; cbn [read_seq];
      try (right; split; [reflexivity|]; intros (b & ts & r & EQ & bs & -> & _); discriminate).
    destruct (read_elements_input lay HD n new i HT) as [(bs & ts & c & r & -> & -> & F & X & Y)|[Y N]].
    - left; exists (ILen (length ts) :: concat bs), ts, c, r; repeat split; auto; now exists bs.
    - right; split; [exact Y|]; intros (b & ts & r & EQ & bs & -> & F).
      injection EQ as -> ->; apply N; exists bs, ts, r; auto.
  Qed.
End Seq.

Lemma flat_map_items {T} (write : T -> list item) (lay : layout T) l :
  (forall t, In t l -> lay (write t) t) -> seq_items lay (ILen (length l) :: flat_map write l) l.
Proof.
  intros H; exists (map write l); split; [now rewrite flat_map_concat_map|].
  induction l as [|t l IH]; constructor; [apply H; now left|apply IH; intros; apply H; now right].
Qed.

Section Containers.
  Context {R : Type} (cmp : R -> R -> comparison) (L : ord_laws cmp) (keep : bool).
  Context (write : R -> list item) (read : reader R) (lay : layout R).
  Local Notation wq := (write_quad write write write write).
  Local Notation rq := (read_quad read read read read).
  Local Notation wt := (write_triple write write write).
  Local Notation rt := (read_triple read read read).
  Local Notation lq := (quad_items lay lay lay lay).
  Local Notation lt := (triple_items lay lay lay).
  Context (HD : decodes read lay).

  Lemma quad_lay q : (forall r, In r (quad_comps q) -> lay (write r) r) -> lq (wq q) q.
  Proof.
    intros H; apply write_quad_items; try (apply H; destruct q as [? ? ? []]; cbn; auto; fail).
    intros g E; apply H; destruct q as [? ? ? []]; cbn in *; [|discriminate].
    injection E as <-; auto.
  Qed.
  Lemma triple_lay t : (forall r, In r (triple_comps t) -> lay (write r) r) -> lt (wt t) t.
  Proof. intros H; apply write_triple_items; apply H; destruct t; cbn; auto. Qed.

  Lemma quad_back q : (forall r, In r (quad_comps q) -> lay (write r) r) ->
    forall rest, rq (wq q ++ rest) = Some (q, rest).
  Proof.
    intros H rest; apply (read_quad_exact read read read read lay lay lay lay HD HD HD HD).
    exists (wq q); split; [reflexivity|now apply quad_lay].
  Qed.
  Lemma triple_back t : (forall r, In r (triple_comps t) -> lay (write r) r) ->
    forall rest, rt (wt t ++ rest) = Some (t, rest).
  Proof.
    intros H rest; apply (read_triple_exact read read read lay lay lay HD HD HD).
    exists (wt t); split; [reflexivity|now apply triple_lay].
  Qed.

  Lemma bd_bin_round (eqb : R -> R -> bool) ops xs d :
    (forall x y, eqb x y = true <-> x = y) ->
    run (bd_step cmp keep) bd_new ops = Some (xs, d) ->
    exists l, bd_iter d = Some l /\
      ((forall q r, In q l -> In r (quad_comps q) -> lay (write r) r) ->
       exists b d', bd_write write d = Some b /\ seq_items lq b l /\
         bd_eqb eqb d d' = Some true /\
         forall rest, bd_read cmp keep read (b ++ rest) = Some (Some (d', rest))).
  Proof.
    intros He H; destruct (bd_rebuild L keep eqb ops xs d He H) as (l & d' & A & B & C & D).
    exists l; split; [exact A|]; intros HR; exists (ILen (length l) :: flat_map wq l), d'.
    split; [|split; [|split; [exact D|]]].
    - unfold bd_write, write_seq; now rewrite B.
    - apply flat_map_items; intros q Hq; apply quad_lay; eauto.
    - intros rest; unfold bd_read; cbn [app read_seq].
      apply (read_written _ wq _ (bd_extend cmp keep)); try reflexivity; [|exact C].
      intros q Hq; apply quad_back; eauto.
  Qed.

  Lemma bd_bin_input i :
    (exists b ts d m r, i = b ++ r /\ seq_items lq b ts /\
       bd_read cmp keep read i = Some (Some (d, r)) /\ bd_iter d = Some m /\
       increasing (quad_cmp cmp) m /\ forall q, In q m <-> In q ts) \/
    (bd_read cmp keep read i = Some None /\
     ~ exists b ts r, i = b ++ r /\ seq_items lq b ts).
  Proof.
    assert (HT : forall ts, bd_extend cmp keep bd_new ts <> None).
    { intros ts; destruct (bd_collect L keep ts) as (d & E & _); unfold bd_from_iter in E; congruence. }
    destruct (read_seq_input (bd_insert cmp keep) rq (bd_extend cmp keep)
                (fun _ => eq_refl) (fun _ _ _ => eq_refl) lq bd_new i (read_quad_exact read read read read lay lay lay lay HD HD HD HD) HT)
      as [(b & ts & d & r & A & B & C & D)|H]; [left|right; exact H].
    destruct (bd_collect L keep ts) as (d' & E & m & F & G & K).
    unfold bd_from_iter in E; rewrite C in E; injection E as <-.
    exists b, ts, d, m, r; do 5 (split; [assumption|]); exact K.
  Qed.

  Lemma id_bin_round (eqb : R -> R -> bool) ops0 ops xs d :
    (forall x y, eqb x y = true <-> x = y) ->
    id_reached cmp keep ops0 ops xs d ->
    exists l, id_iter d = Some l /\
      ((forall q r, In q l -> In r (quad_comps q) -> lay (write r) r) ->
       exists b d', id_write write d = Some b /\ seq_items lq b l /\
         id_eqb eqb d d' = Some true /\
         forall rest, id_read cmp keep read (b ++ rest) = Some (Some (d', rest))).
  Proof.
    intros He H; destruct (id_rebuild L keep eqb ops0 ops xs d He H) as (l & d' & A & B & C & D).
    exists l; split; [exact A|]; intros HR; exists (ILen (length l) :: flat_map wq l), d'.
    split; [|split; [|split; [exact D|]]].
    - unfold id_write, write_seq; now rewrite B.
    - apply flat_map_items; intros q Hq; apply quad_lay; eauto.
    - intros rest; unfold id_read; cbn [app read_seq].
      apply (read_written _ wq _ (id_extend cmp keep)); try reflexivity; [|exact C].
      intros q Hq; apply quad_back; eauto.
  Qed.

  Lemma id_bin_input i :
    (exists b ts d m r, i = b ++ r /\ seq_items lq b ts /\
       id_read cmp keep read i = Some (Some (d, r)) /\ id_iter d = Some m /\
       increasing (quad_cmp cmp) m /\ forall q, In q m <-> In q ts) \/
    (id_read cmp keep read i = Some None /\
     ~ exists b ts r, i = b ++ r /\ seq_items lq b ts).
  Proof.
    assert (HT : forall ts, id_extend cmp keep id_new ts <> None).
    { intros ts; destruct (id_collect L keep ts) as (d & E & _); unfold id_from_iter in E; congruence. }
    destruct (read_seq_input (id_insert cmp keep) rq (id_extend cmp keep)
                (fun _ => eq_refl) (fun _ _ _ => eq_refl) lq id_new i (read_quad_exact read read read read lay lay lay lay HD HD HD HD) HT)
      as [(b & ts & d & r & A & B & C & D)|H]; [left|right; exact H].
    destruct (id_collect L keep ts) as (d' & E & m & F & G & K).
    unfold id_from_iter in E; rewrite C in E; injection E as <-.
    exists b, ts, d, m, r; do 5 (split; [assumption|]); exact K.
  Qed.

  Lemma bg_bin_round (eqb : R -> R -> bool) ops xs d :
    (forall x y, eqb x y = true <-> x = y) ->
    run (bg_step cmp keep) bg_new ops = Some (xs, d) ->
    exists l, bg_iter d = Some l /\
      ((forall q r, In q l -> In r (triple_comps q) -> lay (write r) r) ->
       exists b d', bg_write write d = Some b /\ seq_items lt b l /\
         bg_eqb eqb d d' = Some true /\
         forall rest, bg_read cmp keep read (b ++ rest) = Some (Some (d', rest))).
  Proof.
    intros He H; destruct (bg_rebuild L keep eqb ops xs d He H) as (l & d' & A & B & C & D).
    exists l; split; [exact A|]; intros HR; exists (ILen (length l) :: flat_map wt l), d'.
    split; [|split; [|split; [exact D|]]].
    - unfold bg_write, write_seq; now rewrite B.
    - apply flat_map_items; intros q Hq; apply triple_lay; eauto.
    - intros rest; unfold bg_read; cbn [app read_seq].
      apply (read_written _ wt _ (bg_extend cmp keep)); try reflexivity; [|exact C].
      intros q Hq; apply triple_back; eauto.
  Qed.

  Lemma bg_bin_input i :
    (exists b ts d m r, i = b ++ r /\ seq_items lt b ts /\
       bg_read cmp keep read i = Some (Some (d, r)) /\ bg_iter d = Some m /\
       increasing (triple_cmp cmp) m /\ forall q, In q m <-> In q ts) \/
    (bg_read cmp keep read i = Some None /\
     ~ exists b ts r, i = b ++ r /\ seq_items lt b ts).
  Proof.
    assert (HT : forall ts, bg_extend cmp keep bg_new ts <> None).
    { intros ts; destruct (bg_collect L keep ts) as (d & E & _); unfold bg_from_iter in E; congruence. }
    destruct (read_seq_input (bg_insert cmp keep) rt (bg_extend cmp keep)
                (fun _ => eq_refl) (fun _ _ _ => eq_refl) lt bg_new i (read_triple_exact read read read lay lay lay HD HD HD) HT)
      as [(b & ts & d & r & A & B & C & D)|H]; [left|right; exact H].
    destruct (bg_collect L keep ts) as (d' & E & m & F & G & K).
    unfold bg_from_iter in E; rewrite C in E; injection E as <-.
    exists b, ts, d, m, r; do 5 (split; [assumption|]); exact K.
  Qed.

  Lemma ig_bin_round (eqb : R -> R -> bool) ops0 ops d :
    (forall x y, eqb x y = true <-> x = y) ->
    ig_reached cmp keep ops0 ops d ->
    exists l, ig_iter d = Some l /\
      ((forall q r, In q l -> In r (triple_comps q) -> lay (write r) r) ->
       exists b d', ig_write write d = Some b /\ seq_items lt b l /\
         ig_eqb eqb d d' = Some true /\
         forall rest, ig_read cmp keep read (b ++ rest) = Some (Some (d', rest))).
  Proof.
    intros He H; destruct (ig_rebuild L keep eqb ops0 ops d He H) as (l & d' & A & B & C & D).
    exists l; split; [exact A|]; intros HR; exists (ILen (length l) :: flat_map wt l), d'.
    split; [|split; [|split; [exact D|]]].
    - unfold ig_write, write_seq; now rewrite B.
    - apply flat_map_items; intros q Hq; apply triple_lay; eauto.
    - intros rest; unfold ig_read; cbn [app read_seq].
      apply (read_written _ wt _ (ig_extend cmp keep)); try reflexivity; [|exact C].
      intros q Hq; apply triple_back; eauto.
  Qed.

  Lemma ig_bin_input i :
    (exists b ts d m r, i = b ++ r /\ seq_items lt b ts /\
       ig_read cmp keep read i = Some (Some (d, r)) /\ ig_iter d = Some m /\
       increasing (triple_cmp cmp) m /\ forall q, In q m <-> In q ts) \/
    (ig_read cmp keep read i = Some None /\
     ~ exists b ts r, i = b ++ r /\ seq_items lt b ts).
  Proof.
    assert (HT : forall ts, ig_extend cmp keep ig_new ts <> None).
    { intros ts; destruct (ig_collect L keep ts) as (d & E & _); unfold ig_from_iter in E; congruence. }
    destruct (read_seq_input (ig_insert cmp keep) rt (ig_extend cmp keep)
                (fun _ => eq_refl) (fun _ _ _ => eq_refl) lt ig_new i (read_triple_exact read read read lay lay lay HD HD HD) HT)
      as [(b & ts & d & r & A & B & C & D)|H]; [left|right; exact H].
    destruct (ig_collect L keep ts) as (d' & E & m & F & G & K).
    unfold ig_from_iter in E; rewrite C in E; injection E as <-.
    exists b, ts, d, m, r; do 5 (split; [assumption|]); exact K.
  Qed.
End Containers.

(** ** Terms *)
Section Unread.
  Context {C T : Type} (insert : C -> T -> option (bool * C)) (write : T -> list item) (read : reader T).
  Lemma unread_seq (H : forall i, read i = None) new n l rest :
    l <> [] -> n = length l ->
    read_seq insert read new ((ILen n :: flat_map write l) ++ rest) = Some None.
  Proof.
    intros N ->; destruct l as [|t l]; [congruence|]; cbn [app read_seq length read_elements].
    now rewrite H.
  Qed.
End Unread.

Section UnreadContainers.
  Context {R : Type} (cmp : R -> R -> comparison) (L : ord_laws cmp) (keep : bool).
  Context (write : R -> list item) (read : reader R).
  Context (HN : forall i, read i = None).

  Lemma bd_bin_unread (eqb : R -> R -> bool) ops xs d :
    (forall x y, eqb x y = true <-> x = y) ->
    run (bd_step cmp keep) bd_new ops = Some (xs, d) ->
    exists l b, bd_iter d = Some l /\ bd_write write d = Some b /\
      (l <> [] -> forall rest, bd_read cmp keep read (b ++ rest) = Some None).
  Proof.
    intros He H; destruct (bd_rebuild L keep eqb ops xs d He H) as (l & d' & A & B & C & D).
    exists l; eexists; split; [exact A|]; split; [unfold bd_write, write_seq; rewrite B; reflexivity|].
    intros N rest; apply unread_seq; auto; intros i; unfold read_quad; now rewrite HN.
  Qed.

  Lemma id_bin_unread (eqb : R -> R -> bool) ops0 ops xs d :
    (forall x y, eqb x y = true <-> x = y) ->
    id_reached cmp keep ops0 ops xs d ->
    exists l b, id_iter d = Some l /\ id_write write d = Some b /\
      (l <> [] -> forall rest, id_read cmp keep read (b ++ rest) = Some None).
  Proof.
    intros He H; destruct (id_rebuild L keep eqb ops0 ops xs d He H) as (l & d' & A & B & C & D).
    exists l; eexists; split; [exact A|]; split; [unfold id_write, write_seq; rewrite B; reflexivity|].
    intros N rest; apply unread_seq; auto; intros i; unfold read_quad; now rewrite HN.
  Qed.

  Lemma bg_bin_unread (eqb : R -> R -> bool) ops xs d :
    (forall x y, eqb x y = true <-> x = y) ->
    run (bg_step cmp keep) bg_new ops = Some (xs, d) ->
    exists l b, bg_iter d = Some l /\ bg_write write d = Some b /\
      (l <> [] -> forall rest, bg_read cmp keep read (b ++ rest) = Some None).
  Proof.
    intros He H; destruct (bg_rebuild L keep eqb ops xs d He H) as (l & d' & A & B & C & D).
    exists l; eexists; split; [exact A|]; split; [unfold bg_write, write_seq; rewrite B; reflexivity|].
    intros N rest; apply unread_seq; auto; intros i; unfold read_triple; now rewrite HN.
  Qed.

  Lemma ig_bin_unread (eqb : R -> R -> bool) ops0 ops d :
    (forall x y, eqb x y = true <-> x = y) ->
    ig_reached cmp keep ops0 ops d ->
    exists l b, ig_iter d = Some l /\ ig_write write d = Some b /\
      (l <> [] -> forall rest, ig_read cmp keep read (b ++ rest) = Some None).
  Proof.
    intros He H; destruct (ig_rebuild L keep eqb ops0 ops d He H) as (l & d' & A & B & C & D).
    exists l; eexists; split; [exact A|]; split; [unfold ig_write, write_seq; rewrite B; reflexivity|].
    intros N rest; apply unread_seq; auto; intros i; unfold read_triple; now rewrite HN.
  Qed.
End UnreadContainers.

(** ** The theorems *)
Lemma blank_bin :
  decodes read_blank (text_of (fun b => BLANK_NODE_LABEL b /\ ~ In DOT b)) /\
  forall b, BLANK_NODE_LABEL b /\ ~ In DOT b ->
    text_of (fun b => BLANK_NODE_LABEL b /\ ~ In DOT b) (write_blank b) b.
Proof. split; [exact read_blank_exact|]; intros b H; split; [reflexivity|exact H]. Qed.

Lemma type_bin iri_ok tag_ok :
  let lay := type_items (fun i => iri_ok i = true) (fun t => tag_ok t = true) in
  decodes (read_ltype iri_ok tag_ok) lay /\
  forall t, ltype_ok (fun i => iri_ok i = true) (fun t => tag_ok t = true) t -> lay (write_ltype t) t.
Proof. split; [apply read_type_exact|apply write_type_items]. Qed.

Lemma literal_bin iri_ok tag_ok :
  let lay := literal_items (fun i => iri_ok i = true) (fun t => tag_ok t = true) in
  decodes (read_literal iri_ok tag_ok) lay /\
  forall l, literal_ok (fun i => iri_ok i = true) (fun t => tag_ok t = true) l -> lay (write_literal l) l.
Proof. split; [apply read_literal_exact|apply write_literal_items]. Qed.

Lemma triple_bin {S P O} (rs : reader S) (rp : reader P) (ro : reader O) ls lp lo :
  decodes rs ls -> decodes rp lp -> decodes ro lo ->
  decodes (read_triple rs rp ro) (triple_items ls lp lo) /\
  forall ws wp wo t, ls (ws (t_s t)) (t_s t) -> lp (wp (t_p t)) (t_p t) -> lo (wo (t_o t)) (t_o t) ->
    triple_items ls lp lo (write_triple ws wp wo t) t.
Proof. intros; split; [now apply read_triple_exact|intros; now apply write_triple_items]. Qed.

Lemma quad_bin {S P O G} (rs : reader S) (rp : reader P) (ro : reader O) (rg : reader G) ls lp lo lg :
  decodes rs ls -> decodes rp lp -> decodes ro lo -> decodes rg lg ->
  decodes (read_quad rs rp ro rg) (quad_items ls lp lo lg) /\
  forall ws wp wo wg q, ls (ws (q_s q)) (q_s q) -> lp (wp (q_p q)) (q_p q) -> lo (wo (q_o q)) (q_o q) ->
    (forall g, q_g q = Some g -> lg (wg g) g) ->
    quad_items ls lp lo lg (write_quad ws wp wo wg q) q.
Proof. intros; split; [now apply read_quad_exact|intros; now apply write_quad_items]. Qed.

Lemma rv_bin {T X} (rt : reader T) (rx : reader X) lt lx :
  decodes rt lt -> decodes rx lx ->
  decodes (read_rv rt rx) (rv_items lt lx) /\
  forall wt wx r, (forall t, r = Res t -> lt (wt t) t) -> (forall x, r = Var x -> lx (wx x) x) ->
    rv_items lt lx (write_rv wt wx r) r.
Proof. intros; split; [now apply read_rv_exact|intros; now apply write_rv_items]. Qed.

Lemma never_terms iri_ok tag_ok i :
  read_term iri_ok tag_ok i = None /\ read_local iri_ok tag_ok i = None.
Proof. now split. Qed.

Lemma terms_written iri_ok tag_ok blank_ok :
  (forall t, term_ok iri_ok tag_ok t -> term_items iri_ok tag_ok (write_term t) t) /\
  (forall t, local_ok blank_ok iri_ok tag_ok t -> local_items iri_ok tag_ok blank_ok (write_local t) t).
Proof.
  assert (A : forall t, term_ok iri_ok tag_ok t -> term_items iri_ok tag_ok (write_term t) t).
  { intros [i|[s [i|l]]] [H K].
    - constructor; now apply H.
    - destruct (K _ eq_refl) as [K1 K2]; constructor; constructor; constructor; now apply K1.
    - destruct (K _ eq_refl) as [K1 K2]; constructor; constructor; constructor; now apply K2. }
  split; [exact A|]. intros [b|t] [H K]; constructor; [now apply H|apply A; now apply K].
Qed.

Lemma terms_unread :
  exists t, term_ok (fun _ => True) (fun _ => True) t /\
    local_ok (fun _ => True) (fun _ => True) (fun _ => True) (Named t) /\
    forall iri_ok tag_ok rest,
      read_term iri_ok tag_ok (write_term t ++ rest) = None /\
      read_local iri_ok tag_ok (write_local (Named t) ++ rest) = None.
Proof.
  exists (TIri [104%N; 58%N]); unfold local_ok, term_ok, literal_ok, ltype_ok; repeat split.
Qed.

Lemma interrupted_unread :
  let write n := [IVariant n] in
  let read : reader nat := fun i => match i with IVariant n :: r => Some (n, r) | _ => None end in
  exists l : list (op (quad nat) * nat), forall keep, exists ys d b d',
    m_run (m_bd_step Nat.compare keep) bd_new l = Some (ys, d) /\
    bd_iter d = Some [Quad 1 2 3 None] /\ bd_write write d = Some b /\
    bd_read Nat.compare keep read b = Some None /\
    bd_read Nat.compare keep read (b ++ write_quad write write write write (Quad 5 6 7 None)) =
      Some (Some (d', [])) /\
    bd_iter d' = Some [Quad 1 2 3 None; Quad 5 6 7 None].
Proof.
  intros write read; exists [(Insert (Quad 1 2 3 None), 20); (Insert (Quad 4 2 3 None), 12)].
  intros []; do 4 eexists; (split; [vm_compute; reflexivity|]); (split; [vm_compute; reflexivity|]);
    (split; [vm_compute; reflexivity|]); (split; [vm_compute; reflexivity|]);
    (split; [vm_compute; reflexivity|]); vm_compute; reflexivity.
Qed.

Lemma bd_terms_unread (cmp : local_term -> local_term -> comparison) (L : ord_laws cmp)
    keep iri_ok tag_ok (eqb : local_term -> local_term -> bool) ops xs d :
  (forall x y, eqb x y = true <-> x = y) ->
  run (bd_step cmp keep) bd_new ops = Some (xs, d) ->
  exists l b, bd_iter d = Some l /\ bd_write write_local d = Some b /\
    (l <> [] -> forall rest,
      bd_read cmp keep (read_local iri_ok tag_ok) (b ++ rest) = Some None).
Proof. apply bd_bin_unread; auto. Qed.
Lemma bg_terms_unread (cmp : local_term -> local_term -> comparison) (L : ord_laws cmp)
    keep iri_ok tag_ok (eqb : local_term -> local_term -> bool) ops xs d :
  (forall x y, eqb x y = true <-> x = y) ->
  run (bg_step cmp keep) bg_new ops = Some (xs, d) ->
  exists l b, bg_iter d = Some l /\ bg_write write_local d = Some b /\
    (l <> [] -> forall rest,
      bg_read cmp keep (read_local iri_ok tag_ok) (b ++ rest) = Some None).
Proof. apply bg_bin_unread; auto. Qed.
Lemma id_terms_unread (cmp : local_term -> local_term -> comparison) (L : ord_laws cmp)
    keep iri_ok tag_ok (eqb : local_term -> local_term -> bool) ops0 ops xs d :
  (forall x y, eqb x y = true <-> x = y) ->
  id_reached cmp keep ops0 ops xs d ->
  exists l b, id_iter d = Some l /\ id_write write_local d = Some b /\
    (l <> [] -> forall rest,
      id_read cmp keep (read_local iri_ok tag_ok) (b ++ rest) = Some None).
Proof. apply id_bin_unread; auto. Qed.
Lemma ig_terms_unread (cmp : local_term -> local_term -> comparison) (L : ord_laws cmp)
    keep iri_ok tag_ok (eqb : local_term -> local_term -> bool) ops0 ops d :
  (forall x y, eqb x y = true <-> x = y) ->
  ig_reached cmp keep ops0 ops d ->
  exists l b, ig_iter d = Some l /\ ig_write write_local d = Some b /\
    (l <> [] -> forall rest,
      ig_read cmp keep (read_local iri_ok tag_ok) (b ++ rest) = Some None).
Proof. apply ig_bin_unread; auto. Qed.
