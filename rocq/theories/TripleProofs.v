(** Laws of triples and quads. *)
From Coq Require Import List Bool.
Import ListNotations.
From Verif Require Import Base BaseProofs TripleModel TermModel TermSpec TermProofs TripleConvModel.

(** The order of optional values: none first. *)
Definition option_eqb {A} (e : A -> A -> bool) (x y : option A) : bool :=
  match x, y with Some a, Some b => e a b | None, None => true | _, _ => false end.
Lemma lawful_option {A} e c : @lawful A e c -> lawful (option_eqb e) (option_cmp c).
Proof.
  intros L. split.
  - intros [x|] [y|]; cbn; try apply (law_eq _ _ L); split; congruence.
  - intros [x|] [y|]; cbn; try apply (law_sym _ _ L); reflexivity.
  - intros [x|] [y|] [z|]; cbn; try apply (law_trans _ _ L); congruence.
Qed.

Section Laws.
  Context {S P O G : Type} {es : S -> S -> bool} {ep : P -> P -> bool} {eo : O -> O -> bool}
    {eg : G -> G -> bool} {cs : S -> S -> comparison} {cp : P -> P -> comparison}
    {co : O -> O -> comparison} {cg : G -> G -> comparison}.
  Context (LS : lawful es cs) (LP : lawful ep cp) (LO : lawful eo co) (LG : lawful eg cg).

  Lemma gtriple_lawful : lawful (triple_eqb es ep eo) (gtriple_cmp cs cp co).
  Proof.
    apply (lawful_via (fun t => (t_s t, (t_p t, t_o t))) _ _ _ _
             (lawful_pair _ _ _ _ LS (lawful_pair _ _ _ _ LP LO))).
    - intros x y. unfold triple_eqb, pair_eqb. cbn. now rewrite ?andb_assoc.
    - intros x y. unfold gtriple_cmp, pair_cmp, then_cmp. cbn.
      destruct (cs _ _); try reflexivity. now destruct (cp _ _).
  Qed.
  Lemma gquad_lawful : lawful (quad_eqb es ep eo eg) (gquad_cmp cs cp co cg).
  Proof.
    apply (lawful_via (fun q => (q_s q, (q_p q, (q_o q, q_g q)))) _ _ _ _
             (lawful_pair _ _ _ _ LS (lawful_pair _ _ _ _ LP
                (lawful_pair _ _ _ _ LO (lawful_option _ _ LG))))).
    - intros x y. unfold quad_eqb, pair_eqb, option_eqb. cbn. now rewrite ?andb_assoc.
    - intros x y. unfold gquad_cmp, pair_cmp, then_cmp. cbn.
      destruct (cs _ _); try reflexivity. destruct (cp _ _); try reflexivity. now destruct (co _ _).
  Qed.
End Laws.

(** Lexicographic. *)
Lemma triple_lexicographic {R} (cmp : R -> R -> comparison) (a b : triple R) :
  gtriple_cmp cmp cmp cmp a b = list_cmp cmp [t_s a; t_p a; t_o a] [t_s b; t_p b; t_o b].
Proof.
  unfold gtriple_cmp, then_cmp. cbn.
  destruct (cmp (t_s a) _); try reflexivity. destruct (cmp (t_p a) _); try reflexivity.
  now destruct (cmp (t_o a) _).
Qed.
Lemma quad_lexicographic {R} (cmp : R -> R -> comparison) (a b : quad R) :
  gquad_cmp cmp cmp cmp cmp a b =
  list_cmp (option_cmp cmp) [Some (q_s a); Some (q_p a); Some (q_o a); q_g a]
    [Some (q_s b); Some (q_p b); Some (q_o b); q_g b].
Proof.
  unfold gquad_cmp, then_cmp. cbn -[option_cmp].
  cbn. destruct (cmp (q_s a) _); try reflexivity. destruct (cmp (q_p a) _); try reflexivity.
  destruct (cmp (q_o a) _); try reflexivity. now destruct (option_cmp cmp (q_g a) _).
Qed.
(** The default graph comes first. *)
Lemma quad_default_first {R} (cmp : R -> R -> comparison) s p o g : (forall x, cmp x x = Eq) ->
  gquad_cmp cmp cmp cmp cmp (Quad s p o None) (Quad s p o (Some g)) = Lt.
Proof. intros H. unfold gquad_cmp. cbn. now rewrite !H. Qed.

(** The comparison of different types is that of the owned values, if it is so for
    the components. *)
Section Hetero.
  Context {S1 P1 O1 G1 S2 P2 O2 G2 : Type}.
  Context (fs : S1 -> S2) (fp : P1 -> P2) (fo : O1 -> O2) (fg : G1 -> G2).
  Context (es : S1 -> S2 -> bool) (ep : P1 -> P2 -> bool) (eo : O1 -> O2 -> bool) (eg : G1 -> G2 -> bool).
  Context (hs : S2 -> S2 -> bool) (hp : P2 -> P2 -> bool) (ho : O2 -> O2 -> bool) (hg : G2 -> G2 -> bool).
  Context (ps : S1 -> S2 -> option comparison) (pp : P1 -> P2 -> option comparison)
    (po : O1 -> O2 -> option comparison) (pg : G1 -> G2 -> option comparison).
  Context (cs : S2 -> S2 -> comparison) (cp : P2 -> P2 -> comparison)
    (co : O2 -> O2 -> comparison) (cg : G2 -> G2 -> comparison).

  Lemma triple_eq_hetero a b :
    (forall x y, es x y = hs (fs x) y) -> (forall x y, ep x y = hp (fp x) y) ->
    (forall x y, eo x y = ho (fo x) y) ->
    triple_eqb es ep eo a b =
    triple_eqb hs hp ho (Triple (fs (t_s a)) (fp (t_p a)) (fo (t_o a))) b.
  Proof. intros A B C. unfold triple_eqb. cbn. now rewrite A, B, C. Qed.
  Lemma quad_eq_hetero a b :
    (forall x y, es x y = hs (fs x) y) -> (forall x y, ep x y = hp (fp x) y) ->
    (forall x y, eo x y = ho (fo x) y) -> (forall x y, eg x y = hg (fg x) y) ->
    quad_eqb es ep eo eg a b =
    quad_eqb hs hp ho hg (Quad (fs (q_s a)) (fp (q_p a)) (fo (q_o a)) (option_map fg (q_g a))) b.
  Proof.
    intros A B C D. unfold quad_eqb. cbn. rewrite A, B, C.
    destruct (q_g a), (q_g b); cbn; try reflexivity. now rewrite D.
  Qed.
  Lemma triple_cmp_hetero a b :
    (forall x y, ps x y = Some (cs (fs x) y)) -> (forall x y, pp x y = Some (cp (fp x) y)) ->
    (forall x y, po x y = Some (co (fo x) y)) ->
    triple_partial_cmp ps pp po a b =
    Some (gtriple_cmp cs cp co (Triple (fs (t_s a)) (fp (t_p a)) (fo (t_o a))) b).
  Proof.
    intros A B C. unfold triple_partial_cmp, gtriple_cmp, then_cmp. cbn. rewrite A, B, C.
    destruct (cs _ _); try reflexivity. now destruct (cp _ _).
  Qed.
  Lemma quad_cmp_hetero a b :
    (forall x y, ps x y = Some (cs (fs x) y)) -> (forall x y, pp x y = Some (cp (fp x) y)) ->
    (forall x y, po x y = Some (co (fo x) y)) -> (forall x y, pg x y = Some (cg (fg x) y)) ->
    quad_partial_cmp ps pp po pg a b =
    Some (gquad_cmp cs cp co cg
            (Quad (fs (q_s a)) (fp (q_p a)) (fo (q_o a)) (option_map fg (q_g a))) b).
  Proof.
    intros A B C D. unfold quad_partial_cmp, gquad_cmp, then_cmp. cbn. rewrite A, B, C.
    destruct (cs _ _); try reflexivity. destruct (cp _ _); try reflexivity.
    destruct (co _ _); try reflexivity. destruct (q_g a), (q_g b); cbn; try reflexivity. apply D.
  Qed.
End Hetero.

(** Conversions. *)
Lemma into_quad_triple {S P O G} (t : gtriple S P O) (g : option G) :
  into_triple (into_quad t g) = (t, g).
Proof. now destruct t. Qed.
Lemma into_triple_quad {S P O G} (q : gquad S P O G) :
  into_quad (fst (into_triple q)) (snd (into_triple q)) = q.
Proof. now destruct q. Qed.
Lemma triple_ref_cloned {S P O} ks kp ko (t : gtriple S P O) :
  (forall x, ks x = x) -> (forall x, kp x = x) -> (forall x, ko x = x) ->
  triple_cloned ks kp ko (triple_as_ref t) = t.
Proof. intros A B C. destruct t. unfold triple_cloned. cbn. now rewrite A, B, C. Qed.
Lemma quad_ref_cloned {S P O G} ks kp ko kg (q : gquad S P O G) :
  (forall x, ks x = x) -> (forall x, kp x = x) -> (forall x, ko x = x) -> (forall x, kg x = x) ->
  quad_cloned ks kp ko kg (quad_as_ref q) = q.
Proof.
  intros A B C D. destruct q as [s p o [g|]]; unfold quad_cloned; cbn; rewrite A, B, C; try reflexivity.
  now rewrite D.
Qed.
Lemma triple_ref_copied {S P O} (t : gtriple S P O) : triple_copied (triple_as_ref t) = t.
Proof. now destruct t. Qed.
Lemma quad_ref_copied {S P O G} (q : gquad S P O G) : quad_copied (quad_as_ref q) = q.
Proof. now destruct q as [s p o [g|]]. Qed.
Lemma lexical_triple_round t : lexical_triple_into_owned (as_lexical_triple_ref t) = t.
Proof.
  destruct t as [s p o]. unfold lexical_triple_into_owned. cbn.
  now rewrite id_ref_round, local_ref_round.
Qed.
Lemma lexical_quad_round q : lexical_quad_into_owned (as_lexical_quad_ref q) = q.
Proof.
  destruct q as [s p o [g|]]; unfold lexical_quad_into_owned; cbn;
    now rewrite ?id_ref_round, local_ref_round.
Qed.

(** ** Summaries *)
Lemma lexicographic {R} (cmp : R -> R -> comparison) :
  (forall a b : triple R,
     triple_cmp cmp a b = list_cmp cmp [t_s a; t_p a; t_o a] [t_s b; t_p b; t_o b]) /\
  (forall a b : quad R,
     quad_cmp cmp a b =
     list_cmp (option_cmp cmp) [Some (q_s a); Some (q_p a); Some (q_o a); q_g a]
       [Some (q_s b); Some (q_p b); Some (q_o b); q_g b]) /\
  (forall s p o g, (forall x, cmp x x = Eq) ->
     quad_cmp cmp (Quad s p o None) (Quad s p o (Some g)) = Lt).
Proof.
  exact (conj (triple_lexicographic cmp) (conj (quad_lexicographic cmp) (quad_default_first cmp))).
Qed.
Lemma total_orders {S P O G} (es : S -> S -> bool) (ep : P -> P -> bool)
    (eo : O -> O -> bool) (eg : G -> G -> bool) (cs : S -> S -> comparison)
    (cp : P -> P -> comparison) (co : O -> O -> comparison) (cg : G -> G -> comparison) :
  lawful es cs -> lawful ep cp -> lawful eo co -> lawful eg cg ->
  lawful (triple_eqb es ep eo) (gtriple_cmp cs cp co) /\
  lawful (quad_eqb es ep eo eg) (gquad_cmp cs cp co cg).
Proof. intros A B C D. exact (conj (gtriple_lawful A B C) (gquad_lawful A B C D)). Qed.
Lemma mixed_equality {S1 P1 O1 G1 S2 P2 O2 G2}
    (fs : S1 -> S2) (fp : P1 -> P2) (fo : O1 -> O2) (fg : G1 -> G2) es ep eo eg hs hp ho hg :
  (forall x y, es x y = hs (fs x) y) -> (forall x y, ep x y = hp (fp x) y) ->
  (forall x y, eo x y = ho (fo x) y) -> (forall x y, eg x y = hg (fg x) y) ->
  (forall (a : gtriple S1 P1 O1) (b : gtriple S2 P2 O2), triple_eqb es ep eo a b =
     triple_eqb hs hp ho (Triple (fs (t_s a)) (fp (t_p a)) (fo (t_o a))) b) /\
  (forall (a : gquad S1 P1 O1 G1) (b : gquad S2 P2 O2 G2), quad_eqb es ep eo eg a b =
     quad_eqb hs hp ho hg (Quad (fs (q_s a)) (fp (q_p a)) (fo (q_o a)) (option_map fg (q_g a))) b).
Proof.
  intros A B C D. split; intros a b; [now apply triple_eq_hetero|now apply quad_eq_hetero].
Qed.
Lemma mixed_order {S1 P1 O1 G1 S2 P2 O2 G2}
    (fs : S1 -> S2) (fp : P1 -> P2) (fo : O1 -> O2) (fg : G1 -> G2) ps pp po pg cs cp co cg :
  (forall x y, ps x y = Some (cs (fs x) y)) -> (forall x y, pp x y = Some (cp (fp x) y)) ->
  (forall x y, po x y = Some (co (fo x) y)) -> (forall x y, pg x y = Some (cg (fg x) y)) ->
  (forall (a : gtriple S1 P1 O1) (b : gtriple S2 P2 O2), triple_partial_cmp ps pp po a b =
     Some (gtriple_cmp cs cp co (Triple (fs (t_s a)) (fp (t_p a)) (fo (t_o a))) b)) /\
  (forall (a : gquad S1 P1 O1 G1) (b : gquad S2 P2 O2 G2), quad_partial_cmp ps pp po pg a b =
     Some (gquad_cmp cs cp co cg
             (Quad (fs (q_s a)) (fp (q_p a)) (fo (q_o a)) (option_map fg (q_g a))) b)).
Proof.
  intros A B C D. split; intros a b; [now apply triple_cmp_hetero|now apply quad_cmp_hetero].
Qed.
Lemma partial_cmp_same {S P O G} (cs : S -> S -> comparison)
    (cp : P -> P -> comparison) (co : O -> O -> comparison) (cg : G -> G -> comparison) :
  (forall a b, triple_partial_cmp (fun x y => Some (cs x y)) (fun x y => Some (cp x y))
     (fun x y => Some (co x y)) a b = Some (gtriple_cmp cs cp co a b)) /\
  (forall a b, quad_partial_cmp (fun x y => Some (cs x y)) (fun x y => Some (cp x y))
     (fun x y => Some (co x y)) (fun x y => Some (cg x y)) a b = Some (gquad_cmp cs cp co cg a b)).
Proof.
  destruct (mixed_order (fun x : S => x) (fun x : P => x) (fun x : O => x) (fun x : G => x)
    (fun x y => Some (cs x y)) (fun x y => Some (cp x y))
     (fun x y => Some (co x y)) (fun x y => Some (cg x y)) cs cp co cg) as [A B]; try reflexivity.
  split; intros a b; [rewrite A; now destruct a|rewrite B]. now destruct a as [s p o [g|]].
Qed.
Lemma round_trips {S P O G : Type} :
  (forall (t : gtriple S P O) (g : option G), into_triple (into_quad t g) = (t, g)) /\
  (forall q : gquad S P O G, let (t, g) := into_triple q in into_quad t g = q) /\
  (forall t : gtriple S P O, let '(s, p, o) := triple_into_parts t in Triple s p o = t) /\
  (forall q : gquad S P O G, let '(s, p, o, g) := quad_into_parts q in Quad s p o g = q).
Proof. split; [apply into_quad_triple|]. repeat split; now intros []. Qed.
Lemma references {S P O G : Type} (ks : S -> S) (kp : P -> P) (ko : O -> O) (kg : G -> G) :
  (forall x, ks x = x) -> (forall x, kp x = x) -> (forall x, ko x = x) -> (forall x, kg x = x) ->
  (forall t : gtriple S P O, triple_cloned ks kp ko (triple_as_ref t) = t /\
                             triple_copied (triple_as_ref t) = t) /\
  (forall q : gquad S P O G, quad_cloned ks kp ko kg (quad_as_ref q) = q /\
                             quad_copied (quad_as_ref q) = q).
Proof.
  intros A B C D. repeat split; auto using triple_ref_cloned, triple_ref_copied, quad_ref_cloned,
    quad_ref_copied.
Qed.
Lemma triple_components {S P O : Type} (t : gtriple S P O) :
  (forall U (f : S -> U), triple_into_parts (triple_map_subject f t) = (f (t_s t), t_p t, t_o t)) /\
  (forall U (f : P -> U), triple_into_parts (triple_map_predicate f t) = (t_s t, f (t_p t), t_o t)) /\
  (forall U (f : O -> U), triple_into_parts (triple_map_object f t) = (t_s t, t_p t, f (t_o t))) /\
  (forall x, triple_into_parts (triple_set_subject x t) = (x, t_p t, t_o t)) /\
  (forall x, triple_into_parts (triple_set_predicate x t) = (t_s t, x, t_o t)) /\
  (forall x, triple_into_parts (triple_set_object x t) = (t_s t, t_p t, x)).
Proof. repeat split. Qed.
Lemma quad_components {S P O G : Type} (q : gquad S P O G) :
  (forall U (f : S -> U), quad_into_parts (quad_map_subject f q) = (f (q_s q), q_p q, q_o q, q_g q)) /\
  (forall U (f : P -> U), quad_into_parts (quad_map_predicate f q) = (q_s q, f (q_p q), q_o q, q_g q)) /\
  (forall U (f : O -> U), quad_into_parts (quad_map_object f q) = (q_s q, q_p q, f (q_o q), q_g q)) /\
  (forall U (f : option G -> option U),
     quad_into_parts (quad_map_graph f q) = (q_s q, q_p q, q_o q, f (q_g q))) /\
  (forall g, quad_into_parts (quad_with_graph g q) = (q_s q, q_p q, q_o q, g)) /\
  (forall S' P' O' G' (fs : S -> S') (fp : P -> P') (fo : O -> O') (fg : option G -> option G'),
     quad_into_parts (quad_map_all fs fp fo fg q) = (fs (q_s q), fp (q_p q), fo (q_o q), fg (q_g q))) /\
  (forall x, quad_into_parts (quad_set_subject x q) = (x, q_p q, q_o q, q_g q)) /\
  (forall x, quad_into_parts (quad_set_predicate x q) = (q_s q, x, q_o q, q_g q)) /\
  (forall x, quad_into_parts (quad_set_object x q) = (q_s q, q_p q, x, q_g q)) /\
  (forall x, quad_into_parts (quad_set_graph x q) =
             (q_s q, q_p q, q_o q, option_map (fun _ => x) (q_g q))).
Proof. repeat split. Qed.
Lemma map_facts {T U : Type} (f : T -> U) :
  (forall (t : triple T) (g : option T),
     into_quad (triple_map f t) (option_map f g) = quad_map f (into_quad t g)) /\
  (forall q : quad T, into_triple (quad_map f q) =
     (triple_map f (fst (into_triple q)), option_map f (snd (into_triple q)))) /\
  (forall V (h : U -> V) (q : quad T), quad_map h (quad_map f q) = quad_map (fun x => h (f x)) q) /\
  (forall q : quad T, (forall x y, f x = f y -> x = y) ->
     forall r, quad_map f q = quad_map f r -> q = r).
Proof.
  split; [reflexivity|]. split; [reflexivity|]. split.
  - now intros V h [s p o [g|]].
  - intros [s p o [g|]] I [s' p' o' [g'|]] H; cbn in H; try discriminate;
      injection H as H1 H2 H3; try injection H as H4; f_equal; auto; try (f_equal; auto).
Qed.
