From Coq Require Import List NArith Bool Ascii String Lia.
Import ListNotations.
From Verif Require Import TextModel BlankIdModel BlankIdSpec BlankIdProofs TextProofs WriteModel WriteSpec WriteProofs
  DebugModel DebugSpec DebugProofs DebugReadProofs DebugTermProofs DebugRunProofs ErrorModel ErrorSpec.
Local Open Scope N_scope.

Lemma try_new_spec s : (blank_try_new s = inl s <-> accepted s) /\
  (blank_try_new s = inr s <-> ~ accepted s).
Proof.
  pose proof (new_exact s) as N. unfold accepted. unfold blank_new in N. unfold blank_try_new.
  destruct (check s); split; split; intros H; try discriminate; try reflexivity.
  - now apply N.
  - exfalso. apply H. now apply N.
  - apply N in H. discriminate.
  - intros A. apply N in A. discriminate.
Qed.
Lemma try_new_cases s : blank_try_new s = inl s \/ blank_try_new s = inr s.
Proof. unfold blank_try_new. destruct (check s); auto. Qed.
Lemma refused_returned s :
  (accepted s -> blank_try_new s = inl s /\ blank_try_from_str s = inl s) /\
  (~ accepted s -> blank_try_new s = inr s /\ blank_try_from_str s = inr s) /\
  (accepted (chars "_:" ++ s) -> blank_try_from_suffix s = inl (chars "_:" ++ s)) /\
  (~ accepted (chars "_:" ++ s) -> blank_try_from_suffix s = inr (chars "_:" ++ s)).
Proof.
  pose proof (try_new_spec s) as [A B]. pose proof (try_new_spec (chars "_:" ++ s)) as [C D].
  unfold blank_try_from_str, blank_try_from_suffix. intuition.
Qed.

(** ** Deserialization *)
Lemma debug_string_text v s : shows v s -> debug_string v = s false.
Proof.
  intros S. destruct (S false) as (ps & <- & W). unfold debug_string.
  specialize (W text (fun w s => (w ++ s, true)) []).
  injection W as W'. etransitivity; [exact (f_equal fst W')|].
  assert (F : forall ps w, feed (fun w s => (w ++ s, true)) ps w = (w ++ List.concat ps, true)).
  { induction ps0 as [|p ps0 IH]; intros w; cbn; [now rewrite app_nil_r|]. now rewrite IH, app_assoc. }
  now rewrite F.
Qed.
Lemma char_refused c : ~ accepted [c].
Proof. intros A. apply (proj1 (try_new_spec [c])) in A. unfold blank_try_new, check in A.
  destruct (c =? 95); discriminate. Qed.
Lemma visit_accepts special v b : blank_visit special v = inl b <->
  accepted b /\ (v = VString b \/ v = VStr b \/ v = VBorrowedStr b).
Proof.
  assert (V : forall s b, visit_string special s = inl b <-> accepted b /\ s = b).
  { intros s c. unfold visit_string. pose proof (try_new_spec s) as [A B].
    destruct (try_new_cases s) as [E|E]; rewrite E.
    - split; [intros [= <-]; split; [now apply A|easy]|intros [_ ->]; easy].
    - split; [discriminate|]. intros [C ->]. apply B in E. contradiction. }
  destruct v; cbn [blank_visit]; rewrite ?V; try (split; [intros H|intros [A [H|[H|H]]]]; try discriminate).
  - destruct H as [H ->]. auto.
  - injection H as ->. auto.
  - destruct H as [H ->]. auto.
  - injection H as ->. auto.
  - destruct H as [H ->]. auto.
  - injection H as ->. auto.
  - destruct H as [H H']. subst b. now apply char_refused in H.
Qed.
Lemma refused_string special v s : found_text v = Some s -> ~ accepted s ->
  exists t, quoted special s t /\ blank_visit special v = inr (complaint (chars "value") (chars "string " ++ t)).
Proof.
  intros F A. exists (str_text special s). split; [apply str_quoted|].
  assert (V : visit_string special s = inr (complaint (chars "value") (chars "string " ++ str_text special s))).
  { unfold visit_string. rewrite (proj2 (proj2 (try_new_spec s)) A). f_equal.
    unfold invalid_value, unexpected_text, blank_expecting, complaint.
    rewrite (debug_string_text _ _ (shows_text special s)), <- !app_assoc. reflexivity. }
  destruct v; cbn in F; try discriminate; injection F as F; subst s; exact V.
Qed.
Lemma refused_type special v : found_text v = None ->
  exists t, found_other v t /\ blank_visit special v = inr (complaint (chars "type") t).
Proof.
  destruct v; cbn [found_text]; try discriminate; intros _.
  1: destruct b.
  all: eexists; split; [econstructor; try apply dec_numeral; try apply dec_value_dec|].
  all: cbn [blank_visit]; unfold invalid_type, unexpected_text, complaint, blank_expecting; rewrite <- ?app_assoc; reflexivity.
Qed.
Lemma messages_differ special v w s t m : found_text v = Some s -> found_text w = Some t ->
  blank_visit special v = inr m -> blank_visit special w = inr m -> s = t.
Proof.
  intros F G V W.
  assert (X : forall v s m, found_text v = Some s -> blank_visit special v = inr m ->
    m = complaint (chars "value") (chars "string " ++ str_text special s)).
  { intros v0 s0 m0 F0 V0. assert (A : ~ accepted s0).
    { intros A. assert (B : visit_string special s0 = inl s0)
        by (unfold visit_string; now rewrite (proj2 (proj1 (try_new_spec s0)) A)).
      destruct v0; cbn [found_text] in F0; try discriminate; injection F0 as F0; subst s0;
        cbn [blank_visit] in V0; congruence. }
    destruct (refused_string special v0 s0 F0 A) as (q & Q & E). rewrite E in V0.
    injection V0 as <-. now rewrite (quoted_unique special s0 _ _ Q (str_quoted special s0)). }
  pose proof (X _ _ _ F V) as E. rewrite (X _ _ _ G W) in E. unfold complaint in E.
  rewrite <- !app_assoc in E. do 4 apply app_inv_head in E. symmetry. now apply str_read in E.
Qed.

(** ** The errors shown *)
Section Shown.
  Context {E : Type} (d : E -> dval).
  Lemma invalid_text (s : bool -> E -> text) : (forall e, shows (d e) (fun p => s p e)) ->
    forall e, shows (d_invalid d e) (fun p => shown p (Tuple "InvalidBlankId" [leaf s e])).
  Proof. intros S e. apply shows_tuple. repeat constructor. apply S. Qed.
  Lemma invalid_tells class : has_ascii class -> tells class d -> tells class (d_invalid d).
  Proof.
    intros C T. destruct (tells_good _ _ T) as (s & G).
    apply (good_tells _ _ (fun e => Tuple "InvalidBlankId" [leaf s e])). split.
    - apply invalid_text. exact (g_shows G).
    - intros p a b. eapply agree_imp; [apply agree_tuple; apply ta_cons; [exact (g_reads G p a b)|apply ta_nil]|].
      now intros [H _].
    - intros a. apply all_tuple; [exact C|reflexivity|]. intros t [<-|[]]. exact (g_class G a).
  Qed.
  Lemma export_debug (s : bool -> E -> text) : (forall e, shows (d e) (fun p => s p e)) ->
    forall x, shows (d_export d x) (fun p => shown p (export_tree (leaf s) x)).
  Proof. intros S [e|e|e|e]; apply shows_tuple; repeat constructor; apply S. Qed.
  Lemma export_tells class : has_ascii class -> tells class d -> tells class (d_export d).
  Proof.
    intros C T. destruct (tells_good _ _ T) as (s & G).
    apply (good_tells _ _ (export_tree (leaf s))). good_enum C.
  Qed.
End Shown.
Lemma export_display {E} (d : E -> forall W, writer W -> W -> W * bool) (s : E -> text) :
  (forall e, writes (fun W wr w => Some (d e W wr w)) (s e)) ->
  forall x, writes (fun W wr w => Some (w_export d x W wr w)) (export_text s x).
Proof.
  intros S [e|e|e|e]; unfold export_text, component; rewrite !app_assoc;
    apply (wr_try (fun W wr => w_str wr _)); try apply wr_str; apply S.
Qed.
Lemma feed_append ps : forall w, feed (fun (w s : text) => (w ++ s, true)) ps w = (w ++ List.concat ps, true).
Proof.
  induction ps as [|p ps IH]; intros w; cbn [feed List.concat]; [now rewrite app_nil_r|].
  now rewrite IH, app_assoc.
Qed.
Lemma writes_unique d s t : writes d s -> writes d t -> s = t.
Proof.
  intros (ps & <- & P) (qs & <- & Q).
  specialize (P text (fun w s => (w ++ s, true)) []). rewrite Q, !feed_append in P. now injection P.
Qed.
Lemma export_differ {E} (d : E -> forall W, writer W -> W -> W * bool) (s : E -> text) :
  (forall e, writes (fun W wr w => Some (d e W wr w)) (s e)) -> (forall e f, s e = s f -> e = f) ->
  forall x y t, writes (fun W wr w => Some (w_export d x W wr w)) t ->
                writes (fun W wr w => Some (w_export d y W wr w)) t -> x = y.
Proof.
  intros S I x y t X Y. pose proof (writes_unique _ _ _ X (export_display d s S x)) as H.
  rewrite (writes_unique _ _ _ Y (export_display d s S y)) in H. clear X Y.
  destruct x as [e|e|e|e], y as [f|f|f|f]; unfold export_text, component in H; try discriminate;
    do 3 apply app_inv_head in H; f_equal; symmetry; now apply I.
Qed.
