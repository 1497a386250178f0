(** Maps, and structures with any number of fields: what they show, and how it is read. *)
From Coq Require Import List Arith NArith Bool Ascii String Lia.
Import ListNotations.
From Verif Require Import Base TextModel DisplayModel WriteModel WriteSpec WriteProofs TriplePatternModel
  PatternMapModel DebugModel DebugSpec DebugProofs DebugReadProofs PatternDebugModel PatternDebugSpec.
Local Open Scope N_scope.

(** ** Maps *)
Definition entry_text (k v : text) : text := k ++ chars ": " ++ v.
Definition shows_entry (e : dval * dval) (f : (bool -> text) * (bool -> text)) : Prop :=
  shows (fst e) (fst f) /\ shows (snd e) (snd f).
Lemma wr_entry_line k v s t : writes (sh k true) s -> writes (sh v true) t ->
  writes (sure (fun W wr => padded (w_try (k _ (pad_write wr) true) (w_try (w_str (pad_write wr) (chars ": "))
    (w_try (v _ (pad_write wr) true) (w_str (pad_write wr) (chars "," ++ [10]))))))) (line_item (entry_text s t)).
Proof.
  intros K H. unfold line_item, entry_text. rewrite <- !app_assoc.
  apply (wr_padded (fun W wr => w_try (k W wr true) (w_try (w_str wr (chars ": "))
    (w_try (v W wr true) (w_str wr (chars "," ++ [10])))))).
  apply (wr_try (fun W wr => k W wr true)); [exact K|].
  apply (wr_try (fun W wr => w_str wr (chars ": "))); [apply wr_str|].
  apply (wr_try (fun W wr => v W wr true)); [exact H|apply wr_str].
Qed.
Lemma wr_entry k v s t : writes (sh k false) s -> writes (sh v false) t ->
  writes (sure (fun W wr => w_try (k W wr false) (w_try (w_str wr (chars ": ")) (v W wr false)))) (entry_text s t).
Proof.
  intros K H. apply (wr_try (fun W wr => k W wr false)); [exact K|].
  apply (wr_try (fun W wr => w_str wr (chars ": "))); [apply wr_str|exact H].
Qed.
Lemma wr_map_entries es l : Forall2 shows_entry es l -> forall p,
  writes (sh (d_map_entries false es) p)
    (flat_map (fun f => tail_text p (entry_text (fst f p) (snd f p))) l ++ chars "}").
Proof.
  intros F p. induction F as [|[k v] [s t] es l [K H] F IH]; cbn [d_map_entries flat_map app]; [apply wr_str|].
  cbn in K, H. rewrite <- app_assoc. unfold sh. cbn [d_map_entries].
  apply (wr_try (fun W wr => d_map_entry false (k, v) W wr p)); [|exact IH].
  unfold d_map_entry, tail_text. cbn [fst snd]. destruct p.
  - apply (wr_try (fun W wr => w_ok) _ []); [apply wr_ok|]. apply wr_entry_line; [apply (K true)|apply (H true)].
  - apply (wr_try (fun W wr => w_str wr (chars ", "))); [apply wr_str|].
    apply wr_entry; [apply (K false)|apply (H false)].
Qed.
Definition entry_tree (p : bool) (e : tree * tree) : text := entry_text (shown p (fst e)) (shown p (snd e)).
Lemma shows_map es ts : Forall2 (fun e t => shows (fst e) (fun p => shown p (fst t)) /\
    shows (snd e) (fun p => shown p (snd t))) es ts ->
  shows (d_map es) (fun p => shown p (MapOf ts)).
Proof.
  intros F p. unfold d_map. destruct F as [|[k v] [s t] es ts [K H] F].
  - apply (wr_try (fun W wr => w_str wr (chars "{"))  _ (chars "{") (chars "}")); apply wr_str.
  - cbn in K, H.
    change (shown p (MapOf ((s, t) :: ts))) with
      (chars "{" ++ listing p (map (entry_tree p) ((s, t) :: ts)) ++ chars "}").
    apply (wr_try (fun W wr => w_str wr (chars "{"))); [apply wr_str|].
    assert (G : Forall2 shows_entry es (map (fun t => (fun p => shown p (fst t), fun p => shown p (snd t))) ts)).
    { clear - F. induction F as [|e t es ts [K H] F IH]; cbn; constructor; auto. now split. }
    apply (fun F => wr_map_entries es _ F p) in G. rewrite flat_map_map in G. cbn [d_map_entries map fst snd] in G |- *.
    rewrite listing_tail, flat_map_map, <- app_assoc.
    apply (wr_try (fun W wr => d_map_entry true (k, v) W wr p)); [|exact G].
    unfold d_map_entry. cbn [fst snd]. destruct p.
    + apply (wr_try (fun W wr => w_str wr [10])); [apply wr_str|].
      apply wr_entry_line; [apply (K true)|apply (H true)].
    + apply (wr_try (fun W wr => w_ok) _ []); [apply wr_ok|].
      apply wr_entry; [apply (K false)|apply (H false)].
Qed.

(** ** Lists in braces *)

(** Elements whose texts do not begin like the end of the list. *)
Section Braces.
  Context {A : Type} (s : A -> text) (p : bool).
  Definition braces (l : list A) : text :=
    match l with [] => chars "{}" | _ => chars "{" ++ listing p (map s l) ++ chars "}" end.
  Hypothesis rd : forall a b, agree (s a) (s b) (a = b).
  Hypothesis op : opens s.

  Lemma braces_rest l : forall m x y,
    flat_map (tail_text p) (map s l) ++ chars "}" ++ x =
    flat_map (tail_text p) (map s m) ++ chars "}" ++ y -> l = m /\ x = y.
  Proof.
    induction l as [|a l IH]; intros [|b m] x y E; cbn [map flat_map app] in E.
    - split; [easy|]. now apply app_inv_head in E.
    - exfalso. unfold tail_text at 1 in E. destruct p; [|discriminate].
      unfold line_item in E. rewrite indent_padt in E.
      destruct (op b) as (c & r & S & _). rewrite S in E. discriminate.
    - exfalso. unfold tail_text at 1 in E. destruct p; [|discriminate].
      unfold line_item in E. rewrite indent_padt in E.
      destruct (op a) as (c & r & S & _). rewrite S in E. discriminate.
    - assert (AB : agree (s a) (s b) (a = b)) by apply rd.
      rewrite <- !app_assoc in E. unfold tail_text at 1 3 in E. destruct p.
      + apply (line_item_agree _ _ _ _ _ AB) in E. destruct E as [-> E].
        destruct (IH m x y E) as [-> ->]. easy.
      + rewrite <- !app_assoc in E. apply app_inv_head in E.
        assert (F : forall l x, follows (flat_map (tail_text false) l ++ chars "}" ++ x)).
        { intros [|z l'] w; cbn [flat_map app]; [apply follows_brace|].
          unfold tail_text at 1. rewrite <- !app_assoc. apply (follows_comma (chars " " ++ _)). }
        apply AB in E; [|apply F|apply F]. destruct E as [-> E].
        destruct (IH m x y E) as [-> ->]. easy.
  Qed.
  Lemma braces_agree l m : agree (braces l) (braces m) (l = m).
  Proof.
    intros x y X Y E. pose proof braces_rest as RA.
    assert (S : forall a l, braces (a :: l) = chars "{" ++
      ((if p then newline ++ line_item (s a) else s a) ++ flat_map (tail_text p) (map s l)) ++ chars "}").
    { intros a k. unfold braces. cbn [map]. now rewrite <- listing_tail. }
    assert (N : braces [] = chars "{" ++ chars "}") by reflexivity.
    destruct l as [|a l], m as [|b m]; rewrite ?S, ?N in E; rewrite <- !app_assoc in E;
      apply app_inv_head in E.
    - split; [easy|]. now apply app_inv_head in E.
    - exfalso. destruct p; [discriminate|]. destruct (op b) as (c & r & Z & I).
      rewrite Z in E. injection E as <- _. now apply I.
    - exfalso. destruct p; [discriminate|]. destruct (op a) as (c & r & Z & I).
      rewrite Z in E. injection E as -> _. now apply I.
    - assert (AB : agree (s a) (s b) (a = b)) by apply rd.
      destruct p.
      + rewrite <- !app_assoc in E. apply app_inv_head in E.
        apply (line_item_agree _ _ _ _ _ AB) in E. destruct E as [-> E].
        destruct (RA _ _ _ _ E) as [-> ->]. easy.
      + assert (F : forall l x, follows (flat_map (tail_text false) l ++ chars "}" ++ x)).
        { intros [|z l'] w; cbn [flat_map app]; [apply follows_brace|].
          unfold tail_text at 1. rewrite <- !app_assoc. apply (follows_comma (chars " " ++ _)). }
        apply AB in E; [|apply F|apply F]. destruct E as [-> E].
        destruct (RA _ _ _ _ E) as [-> ->]. easy.
  Qed.
End Braces.
Lemma set_braces {A} (f : A -> tree) p l : shown p (SetOf (map f l)) = braces (fun a => shown p (f a)) p l.
Proof. destruct l as [|a l]; [reflexivity|]. unfold braces. rewrite <- (map_map f). reflexivity. Qed.
Lemma map_braces {A} (f : A -> tree * tree) p l :
  shown p (MapOf (map f l)) = braces (fun a => entry_tree p (f a)) p l.
Proof. destruct l as [|a l]; [reflexivity|]. unfold braces. rewrite <- (map_map f). reflexivity. Qed.
Lemma entry_agree s t u v (P Q : Prop) :
  (forall x y, s ++ chars ": " ++ x = t ++ chars ": " ++ y -> P /\ x = y) -> agree u v Q ->
  agree (entry_text s u) (entry_text t v) (P /\ Q).
Proof.
  intros K V x y X Y E. unfold entry_text in E. rewrite <- !app_assoc in E.
  apply K in E. destruct E as [HP E]. apply V in E; [|assumption|assumption]. tauto.
Qed.

(** ** Structures *)
Inductive fields_agree (p : bool) : list (string * tree) -> list (string * tree) -> Prop -> Prop :=
  | fa_nil : fields_agree p [] [] True
  | fa_cons n s t l m P Q : tree_agree p s t P -> fields_agree p l m Q ->
      fields_agree p ((n, s) :: l) ((n, t) :: m) (P /\ Q).
Lemma agree_fields p n l m P : l <> [] -> fields_agree p l m P ->
  tree_agree p (Struct n l) (Struct n m) P.
Proof.
  intros NE A x y X Y E.
  set (field := fun f : string * tree => chars (fst f) ++ chars ": " ++ shown p (snd f)).
  assert (AG : agrees (map field l) (map field m) P).
  { clear NE E. induction A; cbn [map]; constructor; auto. now apply agree_app, agree_app. }
  destruct A as [|k s t l m P Q A A']; [easy|].
  change (shown p (Struct n ((k, s) :: l))) with
    (if p then chars n ++ chars " {" ++ line_list (map field ((k, s) :: l)) ++ chars "}"
     else chars n ++ chars " { " ++ comma_list (map field ((k, s) :: l)) ++ chars " }") in E.
  change (shown p (Struct n ((k, t) :: m))) with
    (if p then chars n ++ chars " {" ++ line_list (map field ((k, t) :: m)) ++ chars "}"
     else chars n ++ chars " { " ++ comma_list (map field ((k, t) :: m)) ++ chars " }") in E.
  destruct p; rewrite <- !app_assoc in E; apply app_inv_head in E; apply app_inv_head in E.
  - eapply (listing_agree true) in E; [exact E|apply follows_brace|discriminate|exact AG].
  - eapply (listing_agree false) in E; [exact E| |discriminate|exact AG].
    intros z. apply (follows_space (chars "}" ++ z)).
Qed.

Section Class.
  Context (class : char -> Prop) (C : has_ascii class).
  Lemma all_map l : (forall e, In e l -> all_in class (shown false (fst e)) /\ all_in class (shown false (snd e))) ->
    all_in class (shown false (MapOf l)).
  Proof.
    intros H. destruct l as [|t l]; [now apply all_ascii|].
    change (shown false (MapOf (t :: l))) with
      (chars "{" ++ comma_list (map (entry_tree false) (t :: l)) ++ chars "}").
    apply all_app; [now apply all_ascii|]. apply all_app; [|now apply all_ascii].
    apply all_comma; [exact C|]. intros s I. apply in_map_iff in I. destruct I as (u & <- & I).
    destruct (H u I). apply all_app; [assumption|]. apply all_app; [now apply all_ascii|assumption].
  Qed.
End Class.
