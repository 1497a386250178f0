(** [{:?}] and [{:#?}]: what is written, and reading it. *)
From Coq Require Import List Arith NArith Bool Ascii String Lia.
Import ListNotations.
From Verif Require Import Base TextModel TripleModel DisplayModel TermModel TriplePatternModel
  QuadPatternModel WriteModel WriteSpec WriteProofs DebugModel DebugSpec.
Local Open Scope N_scope.

(** ** Indentation *)
Fixpoint padt (st : bool) (s : text) : text :=
  match s with
  | [] => []
  | c :: r => (if st then chars "    " else []) ++ c :: padt (c =? 10) r
  end.
Fixpoint end_state (st : bool) (s : text) : bool :=
  match s with [] => st | c :: r => end_state (c =? 10) r end.

Lemma padt_app st s t : padt st (s ++ t) = padt st s ++ padt (end_state st s) t.
Proof.
  revert st. induction s as [|c s IH]; intros st; [reflexivity|].
  cbn [app padt end_state]. rewrite IH. now rewrite <- app_assoc.
Qed.
Lemma end_state_app st s t : end_state st (s ++ t) = end_state (end_state st s) t.
Proof. revert st. induction s as [|c s IH]; intros st; [reflexivity|]. apply IH. Qed.

Lemma split_cons s : s <> [] -> exists c l ls, split_lines s = (c :: l) :: ls.
Proof.
  induction s as [|c s IH]; [congruence|]. intros _. cbn [split_lines].
  destruct (c =? 10); [now exists c, [], (split_lines s)|].
  destruct s as [|d s]; [now exists c, [], []|].
  destruct IH as (e & l & ls & ->); [discriminate|]. now exists c, (e :: l), ls.
Qed.
Lemma lines_split s : lines s = split_lines s.
Proof.
  induction s as [|c s IH]; [reflexivity|]. cbn [lines split_lines]. rewrite IH.
  destruct (c =? 10) eqn:E.
  - apply N.eqb_eq in E. now subst c.
  - destruct c as [|p]; [easy|].
    do 4 (destruct p as [p|p|]; try reflexivity). discriminate.
Qed.
Lemma ends_line_cons c d l : ends_line (c :: d :: l) = ends_line (d :: l).
Proof.
  unfold ends_line. cbn [rev]. destruct (rev l ++ [d]) eqn:E; [|reflexivity].
  now destruct (rev l).
Qed.

(** The pieces that a [PadAdapter] writes for some lines, and the state after it. *)
Fixpoint line_pieces (st : bool) (ls : list text) : list text :=
  match ls with
  | [] => []
  | l :: ls => (if st then [chars "    "] else []) ++ l :: line_pieces (ends_line l) ls
  end.
Fixpoint line_state (st : bool) (ls : list text) : bool :=
  match ls with [] => st | l :: ls => line_state (ends_line l) ls end.

Lemma line_text s st : List.concat (line_pieces st (split_lines s)) = padt st s /\
  line_state st (split_lines s) = end_state st s.
Proof.
  revert st. induction s as [|c s IH]; intros st; [easy|].
  cbn [split_lines padt end_state]. destruct (c =? 10) eqn:E.
  - assert (E1 : ends_line [c] = true) by exact E.
    cbn [line_pieces line_state]. rewrite List.concat_app, E1. destruct (IH true) as [I1 I2].
    cbn [List.concat]. rewrite I1. split; [|exact I2]. now destruct st.
  - destruct s as [|d s].
    + assert (E1 : ends_line [c] = false) by exact E.
      cbn. now destruct st.
    + destruct (split_cons (d :: s)) as (e & l & ls & S); [discriminate|]. rewrite S in *.
      destruct (IH false) as [I1 I2]. cbn [line_pieces line_state List.concat app] in I1, I2 |- *.
      rewrite ends_line_cons, List.concat_app. cbn [List.concat]. rewrite <- I1. split; [|exact I2].
      now destruct st.
Qed.
Lemma indent_padt s : indent s = padt true s.
Proof.
  unfold indent. rewrite lines_split, <- (proj1 (line_text s true)).
  induction s as [|c s IH]; [reflexivity|]. cbn [split_lines]. destruct (c =? 10) eqn:E.
  - assert (E1 : ends_line [c] = true) by exact E.
    cbn [flat_map line_pieces app List.concat]. now rewrite E1, IH.
  - destruct s as [|d s]; [reflexivity|].
    destruct (split_cons (d :: s)) as (e & l & ls & S); [discriminate|]. rewrite S in *.
    cbn [flat_map line_pieces app List.concat] in IH |- *. rewrite ends_line_cons.
    apply (f_equal (skipn 4)) in IH. cbn [skipn chars map app] in IH. cbn in IH |- *.
    do 5 f_equal. exact IH.
Qed.

Section Pad.
  Context {W : Type} (wr : writer W).
  Lemma pad_lines_feed ls st w : exists st',
    pad_lines wr ls (w, st) =
      (let (w', ok) := feed wr (line_pieces st ls) w in ((w', st'), ok)) /\
    (snd (feed wr (line_pieces st ls) w) = true -> st' = line_state st ls).
  Proof.
    revert st w. induction ls as [|l ls IH]; intros st w; [now exists st|].
    cbn [pad_lines line_pieces line_state]. rewrite feed_app. destruct st; cbn [feed].
    - destruct (wr w (chars "    ")) as [u []]; [|now exists true].
      destruct (wr u l) as [v []]; [|now exists (ends_line l)]. apply IH.
    - destruct (wr w l) as [v []]; [|now exists (ends_line l)]. apply IH.
  Qed.
  Fixpoint all_pieces (st : bool) (ps : list text) : list text :=
    match ps with
    | [] => []
    | p :: ps => line_pieces st (split_lines p) ++ all_pieces (end_state st p) ps
    end.
  Lemma pad_feed ps st w : exists st',
    feed (pad_write wr) ps (w, st) =
      (let (w', ok) := feed wr (all_pieces st ps) w in ((w', st'), ok)).
  Proof.
    revert st w. induction ps as [|p ps IH]; intros st w; [now exists st|].
    cbn [feed all_pieces]. unfold pad_write at 1. rewrite feed_app.
    destruct (pad_lines_feed (split_lines p) st w) as (st1 & -> & S).
    destruct (feed wr (line_pieces st (split_lines p)) w) as [w' []]; [|now exists st1].
    rewrite S by reflexivity. rewrite (proj2 (line_text p st)). apply IH.
  Qed.
End Pad.
Lemma all_pieces_text ps st : List.concat (all_pieces st ps) = padt st (List.concat ps).
Proof.
  revert st. induction ps as [|p ps IH]; intros st; [reflexivity|].
  cbn [all_pieces List.concat]. now rewrite List.concat_app, padt_app, IH, (proj1 (line_text p st)).
Qed.
Lemma wr_padded a s : writes (sure a) s ->
  writes (sure (fun W wr => padded (a (W * bool)%type (pad_write wr)))) (indent s).
Proof.
  intros (ps & <- & P). exists (all_pieces true ps). rewrite indent_padt. split; [apply all_pieces_text|].
  intros W wr w. unfold sure, padded in *. f_equal.
  specialize (P _ (pad_write wr) (w, true)). injection P as ->.
  destruct (pad_feed wr ps true w) as (st & ->).
  now destruct (feed wr (all_pieces true ps) w).
Qed.

(** ** The builders *)
Definition sh (d : dval) (p : bool) : display := sure (fun W wr => d W wr p).
Lemma shows_str s : shows (d_str (chars s)) (fun p => shown p (Tuple s [])).
Proof. intros p. apply wr_str. Qed.

Lemma comma_tail s l : comma_list (s :: l) = s ++ flat_map (fun t => chars ", " ++ t) l.
Proof.
  revert s. induction l as [|t l IH]; intros s; [symmetry; apply app_nil_r|].
  change (comma_list (s :: t :: l)) with (s ++ chars ", " ++ comma_list (t :: l)).
  now rewrite IH.
Qed.
Definition line_item (s : text) : text := indent (s ++ chars "," ++ newline).

Lemma wr_line_item v s : writes (sh v true) s ->
  writes (sure (fun W wr => padded (w_try (v _ (pad_write wr) true)
    (w_str (pad_write wr) (chars "," ++ [10]))))) (line_item s).
Proof.
  intros H. apply (wr_padded (fun W wr => w_try (v W wr true) (w_str wr (chars "," ++ [10])))).
  apply (wr_try (fun W wr => v W wr true)); [exact H|apply wr_str].
Qed.

(** Fields of a tuple. *)
Lemma wr_tuple_fields vs l : Forall2 (fun v s => shows v s) vs l -> forall p,
  writes (sh (d_tuple_fields false vs) p)
    (flat_map (fun s => if p then line_item (s p) else chars ", " ++ s p) l ++ chars ")").
Proof.
  intros F p. induction F as [|v s vs l H F IH]; cbn [d_tuple_fields flat_map app]; [apply wr_str|].
  rewrite <- app_assoc. unfold sh. cbn [d_tuple_fields].
  apply (wr_try (fun W wr => d_tuple_field false v W wr p)); [|exact IH].
  unfold d_tuple_field. destruct p.
  - apply (wr_try (fun W wr => w_ok) _ []); [apply wr_ok|]. apply wr_line_item, (H true).
  - apply (wr_try (fun W wr => w_str wr (chars ", "))); [apply wr_str|apply (H false)].
Qed.
Lemma flat_map_map {A B C} (f : B -> list C) (g : A -> B) l :
  flat_map f (map g l) = flat_map (fun x => f (g x)) l.
Proof. induction l; cbn; congruence. Qed.
Lemma shows_tuple n vs ts : Forall2 (fun v t => shows v (fun p => shown p t)) vs ts ->
  shows (d_tuple (chars n) vs) (fun p => shown p (Tuple n ts)).
Proof.
  intros F p. unfold d_tuple. destruct F as [|v t vs ts H F].
  - pose proof (wr_try (fun W wr => w_str wr (chars n)) (fun W wr => w_ok) _ _ (wr_str _) wr_ok) as X.
    rewrite app_nil_r in X. exact X.
  - change (shown p (Tuple n (t :: ts))) with
      (chars n ++ chars "(" ++ listing p (map (shown p) (t :: ts)) ++ chars ")").
    apply (wr_try (fun W wr => w_str wr (chars n))); [apply wr_str|].
    assert (G : Forall2 (fun v s => shows v s) vs (map (fun t p => shown p t) ts))
      by (clear - F; induction F; cbn; constructor; auto).
    apply (fun F => wr_tuple_fields vs _ F p) in G. rewrite flat_map_map in G. cbn [d_tuple_fields map].
    assert (E : chars "(" ++ listing p (shown p t :: map (shown p) ts) ++ chars ")" =
      (if p then (chars "(" ++ [10]) ++ line_item (shown p t) else chars "(" ++ shown p t) ++
      flat_map (fun x => if p then line_item (shown p x) else chars ", " ++ shown p x) ts ++ chars ")").
    { unfold listing. destruct p.
      - unfold line_list. cbn [flat_map]. rewrite flat_map_map. now rewrite <- !app_assoc.
      - rewrite comma_tail, flat_map_map. now rewrite <- !app_assoc. }
    rewrite E. apply (wr_try (fun W wr => d_tuple_field true v W wr p)); [|exact G].
    unfold d_tuple_field. destruct p.
    + apply (wr_try (fun W wr => w_str wr (chars "(" ++ [10]))); [apply wr_str|].
      apply wr_line_item, (H true).
    + apply (wr_try (fun W wr => w_str wr (chars "("))); [apply wr_str|apply (H false)].
Qed.

(** Fields of a structure. *)
Definition named (n s : text) : text := n ++ chars ": " ++ s.
Lemma wr_named_line n v s : writes (sh v true) s ->
  writes (sure (fun W wr => padded (w_try (w_str (pad_write wr) n) (w_try (w_str (pad_write wr) (chars ": "))
    (w_try (v _ (pad_write wr) true) (w_str (pad_write wr) (chars "," ++ [10]))))))) (line_item (named n s)).
Proof.
  intros H. unfold line_item, named. rewrite <- !app_assoc.
  apply (wr_padded (fun W wr => w_try (w_str wr n) (w_try (w_str wr (chars ": "))
    (w_try (v W wr true) (w_str wr (chars "," ++ [10])))))).
  apply (wr_try (fun W wr => w_str wr n)); [apply wr_str|].
  apply (wr_try (fun W wr => w_str wr (chars ": "))); [apply wr_str|].
  apply (wr_try (fun W wr => v W wr true)); [exact H|apply wr_str].
Qed.
Lemma wr_named n v s : writes (sh v false) s ->
  writes (sure (fun W wr => w_try (w_str wr n) (w_try (w_str wr (chars ": ")) (v W wr false)))) (named n s).
Proof.
  intros H. apply (wr_try (fun W wr => w_str wr n)); [apply wr_str|].
  apply (wr_try (fun W wr => w_str wr (chars ": "))); [apply wr_str|exact H].
Qed.
Definition shows_field (f : text * dval) (g : text * (bool -> text)) : Prop :=
  fst f = fst g /\ shows (snd f) (snd g).
Lemma wr_struct_fields fs l : Forall2 shows_field fs l -> forall p,
  writes (sh (d_struct_fields false fs) p)
    (flat_map (fun g => if p then line_item (named (fst g) (snd g p))
                        else chars ", " ++ named (fst g) (snd g p)) l ++
     if p then chars "}" else chars " }").
Proof.
  intros F p. induction F as [|[n v] [m s] fs l [E H] F IH]; cbn [d_struct_fields flat_map app];
    [apply wr_str|].
  cbn in E, H. subst m. rewrite <- app_assoc. unfold sh. cbn [d_struct_fields].
  apply (wr_try (fun W wr => d_struct_field false (n, v) W wr p)); [|exact IH].
  unfold d_struct_field. cbn [fst snd]. destruct p.
  - apply (wr_try (fun W wr => w_ok) _ []); [apply wr_ok|]. apply wr_named_line, (H true).
  - apply (wr_try (fun W wr => w_str wr (chars ", "))); [apply wr_str|]. apply wr_named, (H false).
Qed.
Lemma shows_struct n fs ts : fs <> [] ->
  Forall2 (fun f t => fst f = chars (fst t) /\ shows (snd f) (fun p => shown p (snd t))) fs ts ->
  shows (d_struct (chars n) fs) (fun p => shown p (Struct n ts)).
Proof.
  intros NE F p. unfold d_struct. destruct F as [|[m v] [m' t] fs ts [E H] F]; [easy|].
  cbn in E, H. subst m.
  set (field := fun f : string * tree => chars (fst f) ++ chars ": " ++ shown p (snd f)).
  change (shown p (Struct n ((m', t) :: ts))) with
    (if p then chars n ++ chars " {" ++ line_list (map field ((m', t) :: ts)) ++ chars "}"
     else chars n ++ chars " { " ++ comma_list (map field ((m', t) :: ts)) ++ chars " }").
  assert (G : Forall2 shows_field fs (map (fun f => (chars (fst f), fun p => shown p (snd f))) ts))
    by (clear - F; induction F; cbn; constructor; auto).
  apply (fun F => wr_struct_fields fs _ F p) in G. rewrite flat_map_map in G. cbn [fst snd] in G.
  assert (E : (if p then chars n ++ chars " {" ++ line_list (map field ((m', t) :: ts)) ++ chars "}"
     else chars n ++ chars " { " ++ comma_list (map field ((m', t) :: ts)) ++ chars " }") =
    chars n ++ (if p then (chars " {" ++ [10]) ++ line_item (named (chars m') (shown p t))
                else chars " { " ++ named (chars m') (shown p t)) ++
    flat_map (fun x => if p then line_item (named (chars (fst x)) (shown p (snd x)))
                       else chars ", " ++ named (chars (fst x)) (shown p (snd x))) ts ++
    if p then chars "}" else chars " }").
  { cbn [map]. destruct p.
    - unfold line_list. cbn [flat_map]. rewrite flat_map_map. now rewrite <- !app_assoc.
    - rewrite comma_tail, flat_map_map. now rewrite <- !app_assoc. }
  rewrite E. apply (wr_try (fun W wr => w_str wr (chars n))); [apply wr_str|].
  cbn [d_struct_fields]. apply (wr_try (fun W wr => d_struct_field true (chars m', v) W wr p)); [|exact G].
  unfold d_struct_field. cbn [fst snd]. destruct p.
  - apply (wr_try (fun W wr => w_str wr (chars " {" ++ [10]))); [apply wr_str|].
    apply wr_named_line, (H true).
  - apply (wr_try (fun W wr => w_str wr (chars " { "))); [apply wr_str|]. apply wr_named, (H false).
Qed.

(** Sets. *)
Lemma wr_set_entries vs l : Forall2 (fun v s => shows v s) vs l -> forall p,
  writes (sh (d_set_entries false vs) p)
    (flat_map (fun s => if p then line_item (s p) else chars ", " ++ s p) l ++ chars "}").
Proof.
  intros F p. induction F as [|v s vs l H F IH]; cbn [d_set_entries flat_map app]; [apply wr_str|].
  rewrite <- app_assoc. unfold sh. cbn [d_set_entries].
  apply (wr_try (fun W wr => d_set_entry false v W wr p)); [|exact IH].
  unfold d_set_entry. destruct p.
  - apply (wr_try (fun W wr => w_ok) _ []); [apply wr_ok|]. apply wr_line_item, (H true).
  - apply (wr_try (fun W wr => w_str wr (chars ", "))); [apply wr_str|apply (H false)].
Qed.
Lemma shows_set vs ts : Forall2 (fun v t => shows v (fun p => shown p t)) vs ts ->
  shows (d_set vs) (fun p => shown p (SetOf ts)).
Proof.
  intros F p. unfold d_set. destruct F as [|v t vs ts H F].
  - apply (wr_try (fun W wr => w_str wr (chars "{"))  _ (chars "{") (chars "}")); apply wr_str.
  - change (shown p (SetOf (t :: ts))) with
      (chars "{" ++ listing p (map (shown p) (t :: ts)) ++ chars "}").
    apply (wr_try (fun W wr => w_str wr (chars "{"))); [apply wr_str|].
    assert (G : Forall2 (fun v s => shows v s) vs (map (fun t p => shown p t) ts))
      by (clear - F; induction F; cbn; constructor; auto).
    apply (fun F => wr_set_entries vs _ F p) in G. rewrite flat_map_map in G. cbn [d_set_entries map].
    assert (E : listing p (shown p t :: map (shown p) ts) ++ chars "}" =
      (if p then [10] ++ line_item (shown p t) else [] ++ shown p t) ++
      flat_map (fun x => if p then line_item (shown p x) else chars ", " ++ shown p x) ts ++ chars "}").
    { unfold listing. destruct p.
      - unfold line_list. cbn [flat_map]. rewrite flat_map_map. now rewrite <- !app_assoc.
      - rewrite comma_tail, flat_map_map. now rewrite <- !app_assoc. }
    rewrite E. apply (wr_try (fun W wr => d_set_entry true v W wr p)); [|exact G].
    unfold d_set_entry. destruct p.
    + apply (wr_try (fun W wr => w_str wr [10])); [apply wr_str|]. apply wr_line_item, (H true).
    + apply (wr_try (fun W wr => w_ok) _ []); [apply wr_ok|apply (H false)].
Qed.
