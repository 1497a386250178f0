(** Reading what [{:?}] and [{:#?}] show. *)
From Coq Require Import List Arith NArith Bool Ascii String Lia.
Import ListNotations.
From Verif Require Import Base TextModel TripleModel DisplayModel TermModel TriplePatternModel
  QuadPatternModel WriteModel WriteSpec WriteProofs DebugModel DebugSpec DebugProofs.
Local Open Scope N_scope.

(** ** Two texts, inside of a longer one *)
Definition agree (s t : text) (P : Prop) : Prop := forall x y,
  follows x -> follows y -> s ++ x = t ++ y -> P /\ x = y.

Lemma agree_imp s t (P Q : Prop) : agree s t P -> (P -> Q) -> agree s t Q.
Proof. intros A I x y X Y E. destruct (A x y X Y E). auto. Qed.
Lemma agree_app u s t P : agree s t P -> agree (u ++ s) (u ++ t) P.
Proof. intros A x y X Y E. rewrite <- !app_assoc in E. apply app_inv_head in E. now apply A. Qed.

Lemma follows_comma r : follows (chars "," ++ r).
Proof. exists 44, r. split; [reflexivity|now left]. Qed.
Lemma follows_paren r : follows (chars ")" ++ r).
Proof. exists 41, r. split; [reflexivity|right; now left]. Qed.
Lemma follows_brace r : follows (chars "}" ++ r).
Proof. exists 125, r. split; [reflexivity|do 3 right; now left]. Qed.
Lemma follows_space r : follows (chars " " ++ r).
Proof. exists 32, r. split; [reflexivity|do 2 right; now left]. Qed.

(** Names are made of letters and [_]. *)
Definition ident (c : char) : bool := range 65 90 c || range 97 122 c || (c =? 95).
Definition is_name (n : text) : Prop := forallb ident n = true.
Definition after_name (r : text) : Prop := match r with [] => False | c :: _ => ident c = false end.
Lemma follows_after x : follows x -> after_name x.
Proof.
  intros (c & r & -> & I). cbn in I |- *. now repeat (destruct I as [<-|I]; [reflexivity|]).
Qed.
Lemma name_split n m r s : is_name n -> is_name m -> after_name r -> after_name s ->
  n ++ r = m ++ s -> n = m /\ r = s.
Proof.
  unfold is_name. revert m. induction n as [|c n IH]; intros [|d m] N M R S E; cbn in *.
  - now split.
  - subst r. cbn in R. apply andb_true_iff in M. destruct M. congruence.
  - subst s. cbn in S. apply andb_true_iff in N. destruct N. congruence.
  - apply andb_true_iff in N, M. destruct N, M. injection E as -> E.
    destruct (IH m) as [-> ->]; easy.
Qed.

(** ** Lists of texts *)
Inductive agrees : list text -> list text -> Prop -> Prop :=
  | agrees_nil : agrees [] [] True
  | agrees_cons s t l m P Q : agree s t P -> agrees l m Q -> agrees (s :: l) (t :: m) (P /\ Q).

Definition tail_text (p : bool) (s : text) : text := if p then line_item s else chars ", " ++ s.

Lemma padt_compare s : forall t st x y, padt st s ++ x = padt st t ++ y ->
  (exists u, t = s ++ u /\ x = padt (end_state st s) u ++ y) \/
  (exists u, s = t ++ u /\ y = padt (end_state st t) u ++ x).
Proof.
  induction s as [|c s IH]; intros t st x y E; [left; now exists t|].
  destruct t as [|d t]; [right; now exists (c :: s)|].
  cbn [padt] in E. rewrite <- !app_assoc in E. apply app_inv_head in E.
  cbn [app] in E. injection E as -> E. cbn [end_state].
  destruct (IH t (d =? 10) x y E) as [(u & -> & ->)|(u & -> & ->)]; [left|right]; now exists u.
Qed.
Lemma line_item_agree s t P x y : agree s t P -> line_item s ++ x = line_item t ++ y -> P /\ x = y.
Proof.
  intros A E. unfold line_item in E. rewrite !indent_padt in E.
  apply padt_compare in E. destruct E as [(u & E & ->)|(u & E & ->)].
  - rewrite <- app_assoc in E. symmetry in E.
    destruct (A ((chars "," ++ newline) ++ u) (chars "," ++ newline)) as [H U];
      [rewrite <- app_assoc; apply follows_comma|apply follows_comma|exact E|].
    split; [exact H|]. rewrite <- (app_nil_r (chars "," ++ newline)) in U at 2.
    apply app_inv_head in U. now subst u.
  - rewrite <- app_assoc in E.
    destruct (A (chars "," ++ newline) ((chars "," ++ newline) ++ u)) as [H U];
      [apply follows_comma|rewrite <- app_assoc; apply follows_comma|exact E|].
    split; [exact H|]. rewrite <- (app_nil_r (chars "," ++ newline)) in U at 1.
    apply app_inv_head in U. now subst u.
Qed.

(** The rest of a list of the same length, ended by a delimiter. *)
Lemma tail_agree p e l m P x y : (forall z, follows (e ++ z)) -> agrees l m P ->
  flat_map (tail_text p) l ++ e ++ x = flat_map (tail_text p) m ++ e ++ y -> P /\ x = y.
Proof.
  intros EF A. induction A as [|s t l m P Q A A' IH]; intros E; cbn [flat_map app] in E.
  - split; [easy|]. now apply app_inv_head in E.
  - rewrite <- !app_assoc in E. unfold tail_text at 1 3 in E. destruct p.
    + apply (line_item_agree _ _ _ _ _ A) in E. destruct E as [HP E].
      destruct (IH E) as [HQ ->]. now repeat split.
    + rewrite <- !app_assoc in E. apply app_inv_head in E.
      assert (F : forall l x, follows (flat_map (tail_text false) l ++ e ++ x)).
      { intros [|z l'] w; cbn [flat_map app]; [apply EF|].
        unfold tail_text at 1. rewrite <- !app_assoc. apply (follows_comma (chars " " ++ _)). }
      apply A in E; [|apply F|apply F]. destruct E as [HP E].
      destruct (IH E) as [HQ ->]. now repeat split.
Qed.
Lemma listing_tail p s l : listing p (s :: l) =
  (if p then newline ++ line_item s else s) ++ flat_map (tail_text p) l.
Proof.
  destruct p; unfold listing.
  - unfold line_list. cbn [flat_map]. rewrite <- app_assoc. reflexivity.
  - apply comma_tail.
Qed.
Lemma listing_agree p e l m P x y : (forall z, follows (e ++ z)) -> l <> [] -> agrees l m P ->
  listing p l ++ e ++ x = listing p m ++ e ++ y -> P /\ x = y.
Proof.
  intros EF NE A. destruct A as [|s t l m P Q A A']; [easy|]. clear NE. intros E.
  rewrite !listing_tail in E. rewrite <- !app_assoc in E.
  destruct p.
  - rewrite <- !app_assoc in E. apply app_inv_head in E.
    apply (line_item_agree _ _ _ _ _ A) in E. destruct E as [HP E].
    apply (tail_agree true e l m Q) in E; [|easy|easy]. now repeat split.
  - assert (F : forall l x, follows (flat_map (tail_text false) l ++ e ++ x)).
    { intros [|z l'] w; cbn [flat_map app]; [apply EF|].
      unfold tail_text at 1. rewrite <- !app_assoc. apply (follows_comma (chars " " ++ _)). }
    apply A in E; [|apply F|apply F]. destruct E as [HP E].
    apply (tail_agree false e l m Q) in E; [|easy|easy]. now repeat split.
Qed.

(** ** Trees *)
Definition tree_agree (p : bool) (s t : tree) : Prop -> Prop := agree (shown p s) (shown p t).
Inductive trees_agree (p : bool) : list tree -> list tree -> Prop -> Prop :=
  | ta_nil : trees_agree p [] [] True
  | ta_cons s t l m P Q : tree_agree p s t P -> trees_agree p l m Q ->
      trees_agree p (s :: l) (t :: m) (P /\ Q).
Lemma trees_texts p l m P : trees_agree p l m P -> agrees (map (shown p) l) (map (shown p) m) P.
Proof. induction 1; cbn; constructor; auto. Qed.

Lemma agree_tuple p n l m P : trees_agree p l m P -> tree_agree p (Tuple n l) (Tuple n m) P.
Proof.
  intros A x y X Y E. destruct A as [|s t l m P Q A A'].
  - cbn [shown] in E. now apply app_inv_head in E.
  - change (shown p (Tuple n (s :: l))) with
      (chars n ++ chars "(" ++ listing p (map (shown p) (s :: l)) ++ chars ")") in E.
    change (shown p (Tuple n (t :: m))) with
      (chars n ++ chars "(" ++ listing p (map (shown p) (t :: m)) ++ chars ")") in E.
    rewrite <- !app_assoc in E. apply app_inv_head in E. apply app_inv_head in E.
    eapply listing_agree in E; [exact E|apply follows_paren|discriminate|].
    apply trees_texts. now constructor.
Qed.
Definition tuple_rest (p : bool) (l : list tree) : text :=
  match l with [] => [] | _ => chars "(" ++ listing p (map (shown p) l) ++ chars ")" end.
Lemma shown_tuple p n l : shown p (Tuple n l) = chars n ++ tuple_rest p l.
Proof. destruct l; [symmetry; apply app_nil_r|reflexivity]. Qed.
Lemma agree_names p n k l m P : n <> k -> is_name (chars n) -> is_name (chars k) ->
  (chars n = chars k -> n = k) -> tree_agree p (Tuple n l) (Tuple k m) P.
Proof.
  intros NK N K I x y X Y E. exfalso. apply NK, I.
  rewrite !shown_tuple, <- !app_assoc in E.
  assert (F : forall l x, follows x -> after_name (tuple_rest p l ++ x)).
  { intros [|t l'] z Z; [now apply follows_after|reflexivity]. }
  exact (proj1 (name_split _ _ _ _ N K (F l x X) (F m y Y) E)).
Qed.
Lemma agree_struct p n m1 m2 s1 s2 t1 t2 P Q : tree_agree p s1 t1 P -> tree_agree p s2 t2 Q ->
  tree_agree p (Struct n [(m1, s1); (m2, s2)]) (Struct n [(m1, t1); (m2, t2)]) (P /\ Q).
Proof.
  intros A B x y X Y E.
  assert (AG : agrees [chars m1 ++ chars ": " ++ shown p s1; chars m2 ++ chars ": " ++ shown p s2]
                      [chars m1 ++ chars ": " ++ shown p t1; chars m2 ++ chars ": " ++ shown p t2]
                      (P /\ Q /\ True)).
  { repeat (apply agrees_cons || apply agrees_nil); apply agree_app, agree_app; assumption. }
  assert (R : (P /\ Q /\ True) /\ x = y); [|now destruct R as [(? & ? & _) ?]].
  destruct p.
  - set (l := [_; _]) in AG at 1. set (r := [_; _]) in AG.
    change (shown true (Struct n [(m1, s1); (m2, s2)])) with
      (chars n ++ chars " {" ++ listing true l ++ chars "}") in E.
    change (shown true (Struct n [(m1, t1); (m2, t2)])) with
      (chars n ++ chars " {" ++ listing true r ++ chars "}") in E.
    rewrite <- !app_assoc in E. apply app_inv_head in E. apply app_inv_head in E.
    eapply listing_agree in E; [exact E|apply follows_brace|discriminate|exact AG].
  - set (l := [_; _]) in AG at 1. set (r := [_; _]) in AG.
    change (shown false (Struct n [(m1, s1); (m2, s2)])) with
      (chars n ++ chars " { " ++ listing false l ++ chars " }") in E.
    change (shown false (Struct n [(m1, t1); (m2, t2)])) with
      (chars n ++ chars " { " ++ listing false r ++ chars " }") in E.
    rewrite <- !app_assoc in E. apply app_inv_head in E. apply app_inv_head in E.
    eapply listing_agree in E; [exact E| |discriminate|exact AG].
    intros z. apply (follows_space (chars "}" ++ z)).
Qed.

(** Sets of elements whose text begins with a letter. *)
Section Sets.
  Context {A : Type} (f : A -> tree) (p : bool).
  Hypothesis rd : forall a b, tree_agree p (f a) (f b) (a = b).
  Hypothesis letter : forall a, exists c r, shown p (f a) = c :: r /\ ident c = true.

  Lemma rest_agree l : forall m x y,
    flat_map (tail_text p) (map (shown p) (map f l)) ++ chars "}" ++ x =
    flat_map (tail_text p) (map (shown p) (map f m)) ++ chars "}" ++ y -> l = m /\ x = y.
  Proof.
    induction l as [|a l IH]; intros [|b m] x y E; cbn [map flat_map app] in E.
    - split; [easy|]. now apply app_inv_head in E.
    - exfalso. unfold tail_text at 1 in E. destruct p; [|discriminate].
      unfold line_item in E. rewrite indent_padt in E.
      destruct (letter b) as (c & r & S & _). rewrite S in E. discriminate.
    - exfalso. unfold tail_text at 1 in E. destruct p; [|discriminate].
      unfold line_item in E. rewrite indent_padt in E.
      destruct (letter a) as (c & r & S & _). rewrite S in E. discriminate.
    - rewrite <- !app_assoc in E. unfold tail_text at 1 3 in E. destruct p.
      + apply (line_item_agree _ _ _ _ _ (rd a b)) in E. destruct E as [-> E].
        destruct (IH m x y E) as [-> ->]. easy.
      + rewrite <- !app_assoc in E. apply app_inv_head in E.
        assert (F : forall l x, follows (flat_map (tail_text false) l ++ chars "}" ++ x)).
        { intros [|z l'] w; cbn [flat_map app]; [apply follows_brace|].
          unfold tail_text at 1. rewrite <- !app_assoc. apply (follows_comma (chars " " ++ _)). }
        apply rd in E; [|apply F|apply F]. destruct E as [-> E].
        destruct (IH m x y E) as [-> ->]. easy.
  Qed.
  Lemma agree_set l m : tree_agree p (SetOf (map f l)) (SetOf (map f m)) (l = m).
  Proof.
    intros x y X Y E. pose proof rest_agree as RA.
    assert (S : forall a l, shown p (SetOf (map f (a :: l))) = chars "{" ++
      ((if p then newline ++ line_item (shown p (f a)) else shown p (f a)) ++
       flat_map (tail_text p) (map (shown p) (map f l))) ++ chars "}").
    { intros a k. rewrite <- listing_tail. reflexivity. }
    assert (N : shown p (SetOf (map f [])) = chars "{" ++ chars "}") by reflexivity.
    destruct l as [|a l], m as [|b m]; rewrite ?S, ?N in E; rewrite <- !app_assoc in E;
      apply app_inv_head in E.
    - split; [easy|]. now apply app_inv_head in E.
    - exfalso. destruct p; [discriminate|]. destruct (letter b) as (c & r & Z & I).
      rewrite Z in E. injection E as <- _. discriminate.
    - exfalso. destruct p; [discriminate|]. destruct (letter a) as (c & r & Z & I).
      rewrite Z in E. injection E as -> _. discriminate.
    - destruct p.
      + rewrite <- !app_assoc in E. apply app_inv_head in E.
        apply (line_item_agree _ _ _ _ _ (rd a b)) in E. destruct E as [-> E].
        destruct (RA _ _ _ _ E) as [-> ->]. easy.
      + assert (F : forall l x, follows (flat_map (tail_text false) l ++ chars "}" ++ x)).
        { intros [|z l'] w; cbn [flat_map app]; [apply follows_brace|].
          unfold tail_text at 1. rewrite <- !app_assoc. apply (follows_comma (chars " " ++ _)). }
        apply rd in E; [|apply F|apply F]. destruct E as [-> E].
        destruct (RA _ _ _ _ E) as [-> ->]. easy.
  Qed.
End Sets.

(** ** The characters of the plain text *)
Section Classes.
  Context (class : char -> Prop) (C : has_ascii class).
  Definition all_in (s : text) : Prop := forall c, In c s -> class c.
  Lemma all_app s t : all_in s -> all_in t -> all_in (s ++ t).
  Proof. intros S T c I. apply in_app_or in I. destruct I; auto. Qed.
  Lemma all_ascii s : forallb (range 32 126) s = true -> all_in s.
  Proof.
    intros F c I. rewrite forallb_forall in F. specialize (F c I). unfold range in F.
    apply andb_true_iff in F. destruct F as [F G]. apply N.leb_le in F, G. now apply C.
  Qed.
  Lemma all_comma l : (forall s, In s l -> all_in s) -> all_in (comma_list l).
  Proof.
    destruct l as [|s l]; [intros _ c []|]. intros H. rewrite comma_tail.
    apply all_app; [apply H; now left|]. intros c I. apply in_flat_map in I.
    destruct I as (t & T & I). revert c I. apply all_app; [now apply all_ascii|].
    apply H. now right.
  Qed.
  Lemma all_tuple n l : forallb (range 32 126) (chars n) = true ->
    (forall t, In t l -> all_in (shown false t)) -> all_in (shown false (Tuple n l)).
  Proof.
    intros N H. rewrite shown_tuple. apply all_app; [now apply all_ascii|].
    destruct l as [|t l]; [intros c []|]. cbn [tuple_rest].
    apply all_app; [now apply all_ascii|]. apply all_app; [|now apply all_ascii].
    apply all_comma. intros s I. apply in_map_iff in I. destruct I as (u & <- & I). now apply H.
  Qed.
  Lemma all_struct n l : forallb (range 32 126) (chars n) = true ->
    (forall f, In f l -> forallb (range 32 126) (chars (fst f)) = true /\ all_in (shown false (snd f))) ->
    all_in (shown false (Struct n l)).
  Proof.
    intros N H. destruct l as [|f l]; [now apply all_ascii|].
    set (field := fun f : string * tree => chars (fst f) ++ chars ": " ++ shown false (snd f)).
    change (shown false (Struct n (f :: l))) with
      (chars n ++ chars " { " ++ comma_list (map field (f :: l)) ++ chars " }").
    apply all_app; [now apply all_ascii|]. apply all_app; [now apply all_ascii|].
    apply all_app; [|now apply all_ascii].
    apply all_comma. intros s I. apply in_map_iff in I. destruct I as (u & <- & I).
    destruct (H u I) as [U V]. apply all_app; [now apply all_ascii|].
    apply all_app; [now apply all_ascii|exact V].
  Qed.
  Lemma all_set l : (forall t, In t l -> all_in (shown false t)) -> all_in (shown false (SetOf l)).
  Proof.
    intros H. destruct l as [|t l]; [now apply all_ascii|].
    change (shown false (SetOf (t :: l))) with
      (chars "{" ++ comma_list (map (shown false) (t :: l)) ++ chars "}").
    apply all_app; [now apply all_ascii|]. apply all_app; [|now apply all_ascii].
    apply all_comma. intros s I. apply in_map_iff in I. destruct I as (u & <- & I). now apply H.
  Qed.
End Classes.

(** ** Types of values *)

(** [tells], by trees. *)
Record good {A} (class : char -> Prop) (d : A -> dval) (f : A -> tree) : Prop := {
  g_shows : forall a, shows (d a) (fun p => shown p (f a));
  g_reads : forall p a b, tree_agree p (f a) (f b) (a = b);
  g_class : forall a, all_in class (shown false (f a))
}.
Arguments g_shows {A class d f}. Arguments g_reads {A class d f}. Arguments g_class {A class d f}.
Lemma good_tells {A} class (d : A -> dval) f : good class d f -> tells class d.
Proof.
  intros G. exists (fun p a => shown p (f a)). split; [exact (g_shows G)|]. split; [|exact (g_class G)].
  intros p a b. exact (g_reads G p a b).
Qed.
Lemma tells_good {A} class (d : A -> dval) : tells class d ->
  exists s : bool -> A -> text, good class d (fun a => Leaf (fun p => s p a)).
Proof. intros (s & S & R & C). exists s. split; [exact S|exact R|exact C]. Qed.

Ltac good_shows := first [apply shows_str | apply shows_tuple; repeat constructor; eauto using g_shows].
Ltac good_fields := repeat (apply ta_cons || apply ta_nil); eauto using g_reads.
Ltac good_reads := first
  [ apply agree_names; [discriminate|reflexivity|reflexivity|intros ?; discriminate]
  | eapply agree_imp; [apply agree_tuple; good_fields|]; cbn; intuition congruence ].
Ltac good_class C := apply all_tuple; [exact C|reflexivity|];
  let t := fresh in let I := fresh in
  intros t I; cbn in I; repeat (destruct I as [<-|I]; [eauto using g_class|]); destruct I.
Ltac good_enum C := split;
  [ intros []; good_shows | intros p [] []; good_reads | intros []; good_class C ].

Section Good.
  Context {T : Type} (class : char -> Prop) (C : has_ascii class) (dt : T -> dval) (f : T -> tree)
    (G : good class dt f).

  Lemma good_option : good class (d_option dt) (option_tree f).
  Proof. good_enum C. Qed.
  Lemma good_triple : good class (d_triple dt) (triple_tree f).
  Proof. good_enum C. Qed.
  Hint Resolve good_option : core.
  Lemma good_quad : good class (d_quad dt) (quad_tree f).
  Proof. good_enum C. Qed.
End Good.
