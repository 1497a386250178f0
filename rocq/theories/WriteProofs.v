From Coq Require Import List Arith NArith Bool Ascii String Lia.
Import ListNotations.
From Verif Require Import Base TextModel TripleModel DisplayModel DisplayContainerModel WriteModel
  WriteSpec SetSpec ContainerSpec IndexedSpec Machine BTreeDatasetModel BTreeGraphModel
  IndexedDatasetModel IndexedGraphModel BTreeDatasetProofs BTreeGraphProofs IndexedRunProofs
  IndexedGraphRunProofs DisplayRunProofs.

(** ** Pieces *)
Lemma feed_app {W} (wr : writer W) ps qs w :
  feed wr (ps ++ qs) w = let (w', ok) := feed wr ps w in if ok then feed wr qs w' else (w', false).
Proof.
  revert w. induction ps as [|p ps IH]; intros w; cbn; [easy|].
  destruct (wr w p) as [w' []]; [apply IH|easy].
Qed.

(** An action that does not panic. *)
Definition sure (a : forall W, writer W -> W -> W * bool) : display := fun W wr w => Some (a W wr w).

Lemma wr_ok : writes (sure (fun W wr => w_ok)) [].
Proof. exists []. now split. Qed.
Lemma wr_str s : writes (sure (fun W wr => w_str wr s)) s.
Proof.
  exists [s]. split; [apply app_nil_r|]. intros W wr w. unfold sure, w_str. cbn.
  now destruct (wr w s) as [? []].
Qed.
Lemma wr_try a b s t : writes (sure a) s -> writes (sure b) t ->
  writes (sure (fun W wr => w_try (a W wr) (b W wr))) (s ++ t).
Proof.
  intros (ps & <- & P) (qs & <- & Q). exists (ps ++ qs). split; [apply List.concat_app|].
  intros W wr w. unfold sure, w_try in *. f_equal. rewrite feed_app.
  specialize (P W wr w). injection P as P. rewrite P. destruct (feed wr ps w) as [w' []]; [|easy].
  specialize (Q W wr w'). now injection Q.
Qed.
Lemma wr_each {A} (body : forall W, writer W -> A -> W -> W * bool) (f : A -> text) l :
  (forall x, In x l -> writes (sure (fun W wr => body W wr x)) (f x)) ->
  writes (sure (fun W wr => w_each (body W wr) l)) (flat_map f l).
Proof.
  induction l as [|x l IH]; intros H; cbn [w_each flat_map]; [apply wr_ok|].
  apply (wr_try (fun W wr => body W wr x)); [apply H; now left|].
  apply IH. intros y Y. apply H. now right.
Qed.

Lemma wr_pad f s : writes (sure (fun W wr => w_pad wr f s)) (pad f s).
Proof.
  assert (E : forall n, flat_map (fun _ : unit => [32%N]) (repeat tt n) = repeat 32%N n)
    by (induction n; cbn; congruence).
  unfold pad. destruct f as [[|n] [p|]]; cbn [w_pad f_width f_prec]; rewrite <- ?E.
  3-4: apply (wr_try (fun W wr => w_str wr _)); [apply wr_str|];
    apply (wr_each (fun W wr (_ : unit) => w_str wr [32%N])); intros; apply wr_str.
  - apply (wr_try (fun W wr => w_str wr _)); [apply wr_str|].
    apply (wr_each (fun W wr (_ : unit) => w_str wr [32%N])); intros; apply wr_str.
  - cbn [Nat.sub repeat flat_map]. rewrite app_nil_r. apply wr_str.
Qed.

(** ** Terms *)
Lemma wr_str_rdf f s : writes (sure (fun W wr => w_str_rdf wr f s)) (str_rdf_fmt f s).
Proof.
  unfold str_rdf_fmt, w_str_rdf.
  apply (wr_try (fun W wr => w_str wr _)); [apply wr_str|].
  apply (wr_try (fun W wr => w_each (w_str_char wr f) s)); [|apply wr_str].
  apply (wr_each (fun W wr => w_str_char wr f)). intros c _. unfold w_str_char, str_char_fmt.
  destruct (c =? 34)%N; [apply wr_str|]. destruct (c =? 92)%N; [apply wr_str|].
  destruct (c =? 10)%N; [apply wr_str|]. destruct (c =? 13)%N; [apply wr_str|]. apply wr_pad.
Qed.
Lemma wr_hex n : writes (sure (fun W wr => w_hex04 wr n)) (hex04 n).
Proof.
  unfold w_hex04, hex04. apply (wr_try (fun W wr => w_str wr _)); [apply wr_str|].
  destruct (n <? 16)%N eqn:E; [|apply wr_str]. apply N.ltb_lt in E.
  change [hex_digit (n / 16); hex_digit (n mod 16)]
    with ([hex_digit (n / 16)] ++ [hex_digit (n mod 16)]).
  rewrite (N.div_small n 16 E), (N.mod_small n 16 E). change [hex_digit 0] with (chars "0").
  apply (wr_try (fun W wr => w_str wr _)); apply wr_str.
Qed.
Lemma wr_iri f s : writes (sure (fun W wr => w_iri_rdf wr f s)) (iri_rdf_fmt f s).
Proof.
  unfold iri_rdf_fmt, w_iri_rdf.
  apply (wr_try (fun W wr => w_str wr _)); [apply wr_str|].
  apply (wr_try (fun W wr => w_each (w_iri_char wr f) s)); [|apply wr_str].
  apply (wr_each (fun W wr => w_iri_char wr f)). intros c _. unfold w_iri_char, iri_char_fmt.
  destruct (iri_escaped c); [|apply wr_pad].
  apply (wr_try (fun W wr => w_str wr _)); [apply wr_str|apply wr_hex].
Qed.
Lemma wr_ltype f ty : writes (sure (fun W wr => w_ltype_rdf wr f ty)) (ltype_rdf_fmt f ty).
Proof.
  destruct ty; cbn [w_ltype_rdf ltype_rdf_fmt]; apply (wr_try (fun W wr => w_str wr _)).
  1,3: apply wr_str. - apply wr_iri. - apply wr_pad.
Qed.
Lemma wr_literal eqb f l : writes (sure (fun W wr => w_literal_rdf wr eqb f l)) (literal_rdf_fmt eqb f l).
Proof.
  unfold w_literal_rdf, literal_rdf_fmt. apply (wr_try (fun W wr => w_str_rdf wr f _)); [apply wr_str_rdf|].
  destruct (is_xsd_string eqb (l_type l)); [apply wr_ok|apply wr_ltype].
Qed.
Lemma wr_term_rdf eqb f t : writes (sure (fun W wr => w_term_rdf wr eqb f t)) (term_rdf_fmt eqb f t).
Proof. destruct t; [apply wr_iri|apply wr_literal]. Qed.
Lemma wr_term eqb f t : writes (sure (fun W wr => w_term wr eqb f t)) (term_fmt eqb f t).
Proof. destruct t; [apply wr_pad|apply wr_literal]. Qed.
Lemma wr_local_rdf eqb f t :
  writes (sure (fun W wr => w_local_rdf wr eqb f t)) (local_term_rdf_fmt eqb f t).
Proof. destruct t; [apply wr_str_rdf|apply wr_term_rdf]. Qed.
Lemma wr_local eqb f t : writes (sure (fun W wr => w_local wr eqb f t)) (local_term_fmt eqb f t).
Proof. destruct t; [apply wr_pad|apply wr_term]. Qed.

(** ** Statements and containers *)
Section Statements.
  Context {R : Type} (ws : forall W, writer W -> fspec -> R -> W -> W * bool)
    (show : fspec -> R -> text)
    (H : forall f r, writes (sure (fun W wr => ws W wr f r)) (show f r)).

  Lemma wr_space b t : writes (sure b) t ->
    writes (sure (fun W wr => w_try (w_str wr (chars " ")) (b W wr))) (chars " " ++ t).
  Proof. intros B. apply (wr_try (fun W wr => w_str wr _)); [apply wr_str|easy]. Qed.
  Lemma wr_show r b t : writes (sure b) t ->
    writes (sure (fun W wr => w_try (ws W wr plain r) (b W wr))) (show plain r ++ t).
  Proof. intros B. apply (wr_try (fun W wr => ws W wr plain r)); [apply H|easy]. Qed.

  Lemma wr_triple t : writes (sure (fun W wr => w_triple_rdf wr (ws W wr) t)) (triple_rdf_fmt show t).
  Proof.
    apply wr_show, wr_space, (wr_show _ (fun W wr => w_try _ (ws W wr plain _))).
    apply (wr_space (fun W wr => ws W wr plain _)), H.
  Qed.
  Lemma wr_quad q : writes (sure (fun W wr => w_quad_rdf wr (ws W wr) q)) (quad_rdf_fmt show q).
  Proof.
    unfold w_quad_rdf, quad_rdf_fmt. destruct (q_g q) as [g|].
    - do 3 (eapply wr_show, wr_space). apply H.
    - do 2 (eapply wr_show, wr_space). apply H.
  Qed.
  Lemma wr_lines {T} (rdf : forall W, writer W -> T -> W -> W * bool) (f : T -> text) l :
    (forall x, writes (sure (fun W wr => rdf W wr x)) (f x)) ->
    writes (sure (fun W wr => w_each (w_line wr (rdf W wr)) l))
      (flat_map (fun x => f x ++ chars " ." ++ [10%N]) l).
  Proof.
    intros F. apply (wr_each (fun W wr => w_line wr (rdf W wr))). intros x _.
    apply (wr_try (fun W wr => rdf W wr x)); [apply F|apply wr_str].
  Qed.

  Definition at_writer {W} (a : option (W -> W * bool)) (w : W) : option (W * bool) :=
    match a with Some a => Some (a w) | None => None end.
  Lemma wr_bd d s : bd_rdf_fmt show d = Some s ->
    writes (fun W wr w => at_writer (w_bd_rdf wr (ws W wr) d) w) s.
  Proof.
    unfold bd_rdf_fmt, w_bd_rdf. destruct (bd_iter d) as [l|]; cbn; [|discriminate]. intros [= <-].
    apply (wr_lines (fun W wr => w_quad_rdf wr (ws W wr))), wr_quad.
  Qed.
  Lemma wr_id d s : id_rdf_fmt show d = Some s ->
    writes (fun W wr w => at_writer (w_id_rdf wr (ws W wr) d) w) s.
  Proof.
    unfold id_rdf_fmt, w_id_rdf. destruct (id_iter d) as [l|]; cbn; [|discriminate]. intros [= <-].
    apply (wr_lines (fun W wr => w_quad_rdf wr (ws W wr))), wr_quad.
  Qed.
  Lemma wr_bg g s : bg_rdf_fmt show g = Some s ->
    writes (fun W wr w => at_writer (w_bg_rdf wr (ws W wr) g) w) s.
  Proof.
    unfold bg_rdf_fmt, w_bg_rdf. destruct (bg_iter g) as [l|]; cbn; [|discriminate]. intros [= <-].
    apply (wr_lines (fun W wr => w_triple_rdf wr (ws W wr))), wr_triple.
  Qed.
  Lemma wr_ig g s : ig_rdf_fmt show g = Some s ->
    writes (fun W wr w => at_writer (w_ig_rdf wr (ws W wr) g) w) s.
  Proof.
    unfold ig_rdf_fmt, w_ig_rdf. destruct (ig_iter g) as [l|]; cbn; [|discriminate]. intros [= <-].
    apply (wr_lines (fun W wr => w_triple_rdf wr (ws W wr))), wr_triple.
  Qed.
End Statements.

(** ** Consequences *)
Lemma feed_bounded n ps w : List.length w <= n ->
  feed (bounded n) ps w = (firstn n (w ++ List.concat ps), List.length (w ++ List.concat ps) <=? n).
Proof.
  revert w. induction ps as [|p ps IH]; intros w B; cbn [feed List.concat].
  - rewrite app_nil_r, firstn_all2 by easy. now rewrite (proj2 (Nat.leb_le _ _) B).
  - unfold bounded at 1. destruct (List.length w + List.length p <=? n) eqn:E.
    + apply Nat.leb_le in E. rewrite IH by (rewrite app_length; lia). now rewrite <- app_assoc.
    + apply Nat.leb_gt in E. f_equal.
      * rewrite firstn_app, (firstn_all2 w) by lia. f_equal. rewrite firstn_app.
        replace (n - List.length w - List.length p) with 0 by lia. now rewrite firstn_O, app_nil_r.
      * symmetry. apply Nat.leb_gt. rewrite !app_length. lia.
Qed.
Lemma writes_bounded d s n : writes d s ->
  d (list N) (bounded n) [] = Some (firstn n s, List.length s <=? n).
Proof.
  intros (ps & <- & D). rewrite D, feed_bounded by (cbn; lia). reflexivity.
Qed.

Lemma feed_keeps {W} (wr : writer W) got : keeps wr got -> forall ps w,
  exists kept left, List.concat ps = kept ++ left /\ got (fst (feed wr ps w)) = got w ++ kept /\
    (snd (feed wr ps w) = true -> left = []).
Proof.
  intros K ps. induction ps as [|p ps IH]; intros w; cbn [feed List.concat].
  - exists [], []. repeat split. symmetry. apply app_nil_r.
  - destruct (K w p) as (k & l & E & G & O). destruct (wr w p) as [w' []]; cbn [fst snd] in *.
    + rewrite (O eq_refl), app_nil_r in E. subst k. destruct (IH w') as (k & l' & E & G' & O').
      exists (p ++ k), l'. rewrite E, <- app_assoc. split; [easy|]. split; [|easy].
      rewrite G', G. now rewrite app_assoc.
    + exists k, (l ++ List.concat ps). rewrite E, <- app_assoc. now repeat split.
Qed.
Lemma writes_keeps d s : writes d s -> forall W (wr : writer W) got, keeps wr got -> forall w,
  exists w' ok kept left, d W wr w = Some (w', ok) /\ s = kept ++ left /\
    got w' = got w ++ kept /\ (ok = true -> left = []).
Proof.
  intros (ps & <- & D) W wr got K w. destruct (feed_keeps wr got K ps w) as (k & l & E & G & O).
  rewrite D. destruct (feed wr ps w) as [w' ok]. now exists w', ok, k, l.
Qed.

Lemma feed_observed {W} (wr : writer W) ps w h :
  exists h', feed (observed wr) ps (w, h) = ((fst (feed wr ps w), h ++ h'), snd (feed wr ps w)) /\
    (snd (feed wr ps w) = true -> map fst h' = ps /\ forall x, In x h' -> snd x = true) /\
    (snd (feed wr ps w) = false -> exists a p b, ps = a ++ p :: b /\
       h' = map (fun q => (q, true)) a ++ [(p, false)]).
Proof.
  revert w h. induction ps as [|p ps IH]; intros w h; cbn [feed].
  - exists []. rewrite app_nil_r. repeat split; easy.
  - unfold observed at 1. cbn [fst snd]. destruct (wr w p) as [w' []]; cbn [fst snd].
    + destruct (IH w' (h ++ [(p, true)])) as (h' & E & T & F). exists ((p, true) :: h').
      rewrite E, <- app_assoc. split; [easy|]. split.
      * intros O. destruct (T O) as [<- A]. split; [easy|]. intros x [<-|X]; [easy|now apply A].
      * intros O. destruct (F O) as (a & q & b & -> & ->). now exists (p :: a), q, b.
    + exists [(p, false)]. repeat split; try easy. intros _. now exists [], p, ps.
Qed.
Lemma writes_stops d s : writes d s -> exists ps, List.concat ps = s /\
  forall W (wr : writer W) w, exists w' ok h,
    d W wr w = Some (w', ok) /\ d _ (observed wr) (w, []) = Some ((w', h), ok) /\
    (ok = true -> h = map (fun p => (p, true)) ps) /\
    (ok = false -> exists a p b, ps = a ++ p :: b /\ h = map (fun q => (q, true)) a ++ [(p, false)]).
Proof.
  intros (ps & E & D). exists ps. split; [easy|]. intros W wr w.
  destruct (feed_observed wr ps w []) as (h & O & T & F). rewrite !D, O.
  destruct (feed wr ps w) as [w' ok]. cbn [fst snd] in *. exists w', ok, h.
  split; [easy|]. split; [easy|]. split; [|easy]. intros K. destruct (T K) as [<- A].
  clear -A. induction h as [|[p b] h IH]; [easy|]. cbn. f_equal.
  - f_equal. apply (A (p, b)). now left.
  - apply IH. intros x X. apply A. now right.
Qed.
Lemma writes_same d s t : writes d s -> writes d t -> s = t.
Proof.
  intros (ps & <- & P) (qs & <- & Q). specialize (P _ (fun w p => (w ++ p, true)) []).
  rewrite Q in P. injection P as P. assert (A : forall ps w,
    feed (fun w p => (w ++ p : list N, true)) ps w = (w ++ List.concat ps, true)).
  { clear. induction ps as [|p ps IH]; intros w; cbn; [now rewrite app_nil_r|].
    now rewrite IH, app_assoc. }
  rewrite !A in P. now injection P.
Qed.

(** ** Containers that are reached *)
Section Reached.
  Context {R : Type} (cmp : R -> R -> comparison) (L : ord_laws cmp).
  Context (ws : forall W, writer W -> fspec -> R -> W -> W * bool) (show : fspec -> R -> text)
    (H : forall f r, writes (sure (fun W wr => ws W wr f r)) (show f r)).

  Lemma bd_writes keep ops xs d : run (bd_step cmp keep) bd_new ops = Some (xs, d) ->
    exists s, bd_rdf_fmt show d = Some s /\
      writes (fun W wr w => at_writer (w_bd_rdf wr (ws W wr) d) w) s.
  Proof.
    intros D. destruct (bd_iteration L keep ops xs d D) as (l & I & _).
    exists (quads_rdf_fmt show l). assert (E : bd_rdf_fmt show d = Some (quads_rdf_fmt show l))
      by (unfold bd_rdf_fmt; now rewrite I).
    split; [easy|]. exact (wr_bd ws show H d _ E).
  Qed.
  Lemma id_writes keep ops0 ops xs d : id_reached cmp keep ops0 ops xs d ->
    exists s, id_rdf_fmt show d = Some s /\
      writes (fun W wr w => at_writer (w_id_rdf wr (ws W wr) d) w) s.
  Proof.
    intros D. destruct (id_contents L keep ops0 ops xs d D) as (l & I & _).
    exists (quads_rdf_fmt show l). assert (E : id_rdf_fmt show d = Some (quads_rdf_fmt show l))
      by (unfold id_rdf_fmt; now rewrite I).
    split; [easy|]. exact (wr_id ws show H d _ E).
  Qed.
  Lemma bg_writes keep ops xs g : run (bg_step cmp keep) bg_new ops = Some (xs, g) ->
    exists s, bg_rdf_fmt show g = Some s /\
      writes (fun W wr w => at_writer (w_bg_rdf wr (ws W wr) g) w) s.
  Proof.
    intros D. destruct (bg_iteration L keep ops xs g D) as (l & I & _).
    exists (triples_rdf_fmt show l). assert (E : bg_rdf_fmt show g = Some (triples_rdf_fmt show l))
      by (unfold bg_rdf_fmt; now rewrite I).
    split; [easy|]. exact (wr_bg ws show H g _ E).
  Qed.
  Lemma ig_writes keep ops0 ops g : ig_reached cmp keep ops0 ops g ->
    exists s, ig_rdf_fmt show g = Some s /\
      writes (fun W wr w => at_writer (w_ig_rdf wr (ws W wr) g) w) s.
  Proof.
    intros D. destruct (ig_contents L keep ops0 ops g D) as (l & I & _).
    exists (triples_rdf_fmt show l). assert (E : ig_rdf_fmt show g = Some (triples_rdf_fmt show l))
      by (unfold ig_rdf_fmt; now rewrite I).
    split; [easy|]. exact (wr_ig ws show H g _ E).
  Qed.
End Reached.

(** ** With a context *)
Lemma contextual_writes {T C} (with_ : forall W, writer W -> C -> fspec -> T -> W -> W * bool)
    (text_with : C -> fspec -> T -> text) :
  (forall c f t, writes (sure (fun W wr => with_ W wr c f t)) (text_with c f t)) ->
  forall f v, writes (sure (fun W wr => w_contextual (with_ W wr) f v)) (text_with (snd v) f (fst v)).
Proof. intros H f [t c]. apply H. Qed.
Lemma context_ignored {C} (c : C) f s :
  writes (sure (fun W wr => w_contextual (w_iri_with wr) f (s, c))) (iri_rdf_fmt f s) /\
  writes (sure (fun W wr => w_contextual (w_tag_with wr) f (s, c))) (tag_rdf_fmt f s).
Proof. split; [apply wr_iri|apply wr_pad]. Qed.
