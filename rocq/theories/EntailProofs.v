(** Simple entailment by pattern queries. *)
From Coq Require Import List Bool Arith Lia Ascii String.
Import ListNotations.
From Verif Require Import Base TextModel DisplayModel TermModel TripleModel TriplePatternModel SetSpec
  ContainerSpec PatternSpec IndexedSpec Machine BaseProofs TermProofs BTreeGraphModel BTreeGraphProofs
  IndexedGraphModel IndexedRunProofs IndexedGraphRunProofs JoinModel JoinSpec JoinProofs MeaningSpec EntailModel.
Open Scope list_scope.

Section Meaning.
  Implicit Types G H l : list (triple local_term).
  Notation pats l := (map (triple_map as_variable) l).

  (** Solutions are maps of blank nodes to terms. *)
  Lemma solves_named G l a :
    solves G (pats l) a <->
    forall t, In t l -> In (Triple (assigned a (as_variable (t_s t))) (assigned a (as_variable (t_p t)))
                                   (assigned a (as_variable (t_o t)))) G.
  Proof.
    unfold solves; split; intros S x Hx.
    - apply (S (triple_map as_variable x)); now apply in_map.
    - apply in_map_iff in Hx as (t & <- & Ht); exact (S t Ht).
  Qed.

  Lemma thing_assigned W (v : text -> thing W) a t :
    thing_of W v (assigned a (as_variable t)) = thing_of W (fun b => thing_of W v (a b)) t.
  Proof. destruct t; reflexivity. Qed.

  Lemma solves_follows G l a : solves G (pats l) a -> follows G l.
  Proof.
    rewrite solves_named; intros S W (v & Hv); exists (fun b => thing_of W v (a b)); intros t Ht.
    specialize (Hv _ (S t Ht)); cbn in Hv; now rewrite !thing_assigned in Hv.
  Qed.

  (** The world whose things are the terms, where what holds is the graph. *)
  Definition of_terms G : world :=
    World local_term Named (fun q => In (Triple (q_s q) (q_p q) (q_o q)) G).

  Lemma follows_solves G l : follows G l -> exists a, solves G (pats l) a.
  Proof.
    intros F; destruct (F (of_terms G)) as (a & A).
    - exists Anonymous; intros t Ht; cbn.
      assert (forall x, thing_of (of_terms G) Anonymous x = x) as E by (now intros []).
      rewrite !E; now destruct t.
    - exists a; rewrite solves_named; intros t Ht; specialize (A t Ht); cbn in A.
      assert (forall x, assigned a (as_variable x) = thing_of (of_terms G) a x) as E by (now intros []).
      now rewrite !E.
  Qed.

  Lemma anchored_named (k : text -> Prop) l :
    (forall t, In t l -> exists n, t_s t = Named n) -> anchored k (pats l).
  Proof.
    revert k; induction l as [|t l IH]; intros k Hn; cbn; [exact Logic.I|]; split.
    - destruct (Hn t (or_introl eq_refl)) as (n & ->); exact Logic.I.
    - apply IH; intros u Hu; apply Hn; now right.
  Qed.

  Lemma follows_ext G H H' : (forall t, In t H <-> In t H') -> follows G H -> follows G H'.
  Proof. intros E F W HG; destruct (F W HG) as (a & A); exists a; intros t Ht; apply A, E, Ht. Qed.
  Lemma follows_ext_l G G' H : (forall t, In t G <-> In t G') -> follows G H -> follows G' H.
  Proof. intros E F W (a & A); apply F; exists a; intros t Ht; apply A, E, Ht. Qed.
End Meaning.

Section Program.
  Context {cmp : local_term -> local_term -> comparison} (L : ord_laws cmp).
  Notation tcmp := (triple_cmp cmp).
  Notation contents ops := (spec_set tcmp ops).

  Lemma entails_found keep keep' ops0 ops g spare hops hxs h :
    ig_reached cmp keep ops0 ops g -> run (bg_step cmp keep') bg_new hops = Some (hxs, h) ->
    exists l out, bg_iter h = Some l /\ (forall t, In t l <-> In t (contents hops)) /\
      solve cmp str_eqb g spare (map (triple_map as_variable) l) [] = Some out /\
      entails cmp spare g h = Some (match out with [] => false | _ :: _ => true end) /\
      (out <> [] -> exists a, solves (contents (ops0 ++ ops)) (map (triple_map as_variable) l) a).
  Proof.
    intros Hg Hh; destruct (bg_iteration L keep' _ _ _ Hh) as (l & E & _ & _ & M).
    destruct (join_sound L str_eqb_spec keep ops0 ops g spare (map (triple_map as_variable) l) Hg)
      as (out & vs & Eo & _ & Nv & _ & S).
    exists l, out; split; [exact E|]; split; [exact M|]; split; [exact Eo|]; split.
    - unfold entails; rewrite E, Eo; reflexivity.
    - destruct out as [|b out]; [congruence|intros _].
      destruct (S b (or_introl eq_refl)) as [Hb A].
      exists (fun x => match bound str_eqb x b with Some v => v | None => Anonymous x end).
      apply A; intros x v Hx; rewrite (in_bound str_eqb_spec x v b); [reflexivity| |exact Hx].
      now rewrite Hb.
  Qed.

  Lemma entails_sound keep keep' ops0 ops g spare hops hxs h :
    ig_reached cmp keep ops0 ops g -> run (bg_step cmp keep') bg_new hops = Some (hxs, h) ->
    exists x, entails cmp spare g h = Some x /\
      (x = true -> follows (contents (ops0 ++ ops)) (contents hops)).
  Proof.
    intros Hg Hh; destruct (entails_found _ _ _ _ _ spare _ _ _ Hg Hh) as (l & out & _ & M & _ & E & S).
    eexists; split; [exact E|]; destruct out as [|b out]; [discriminate|intros _].
    apply (follows_ext _ l _ M); destruct S as (a & A); [discriminate|exact (solves_follows _ _ _ A)].
  Qed.

  Lemma entails_exact keep keep' ops0 ops g spare hops hxs h :
    ig_reached cmp keep ops0 ops g -> run (bg_step cmp keep') bg_new hops = Some (hxs, h) ->
    known_log tcmp triple_comps any_resource [] (set_log tcmp [] (ops0 ++ ops)) ->
    vacancies 0 (set_log tcmp [] (ops0 ++ ops)) = 0 \/
      (forall t, In t (contents hops) -> exists n, t_s t = Named n) ->
    exists x, entails cmp spare g h = Some x /\
      (x = true <-> follows (contents (ops0 ++ ops)) (contents hops)).
  Proof.
    intros Hg Hh K V.
    destruct (entails_sound _ _ _ _ _ spare _ _ _ Hg Hh) as (x & E & Sx); exists x; split; [exact E|].
    split; [exact Sx|]; intros F.
    destruct (entails_found _ _ _ _ _ spare _ _ _ Hg Hh) as (l & out & _ & M & Eo & E' & _).
    assert (x = match out with [] => false | _ :: _ => true end) as -> by congruence.
    destruct (join_complete L str_eqb_spec keep ops0 ops g spare (map (triple_map as_variable) l) Hg K) as (out' & Eo' & C).
    { destruct V as [V|V]; [now right|left; apply anchored_named; intros t Ht; apply V, M, Ht]. }
    rewrite Eo in Eo'; injection Eo' as <-.
    apply (follows_ext _ _ l) in F; [|intros t; symmetry; apply M].
    apply follows_solves in F as (a & A); apply C in A as (b & Hb & _).
    destruct out; [contradiction|reflexivity].
  Qed.

  (** Graphs of triples without repeated terms, rebuilt. *)
  Lemma known_nodup log : (forall b t, In (b, t) log -> NoDup (triple_comps t)) ->
    forall s, known_log tcmp triple_comps any_resource s log.
  Proof.
    induction log as [|[b t] log IH]; intros N s; cbn [known_log]; [exact Logic.I|].
    split; [|apply IH; intros c u Hu; apply (N c); now right].
    destruct b; [|exact Logic.I]; intros i j r _ Hij Hi Hj; exfalso.
    specialize (N _ _ (or_introl eq_refl)); rewrite NoDup_nth_error in N; assert (i = j) as <-; [|lia].
    apply N; [apply nth_error_Some|]; congruence.
  Qed.
  Lemma extend_log l : forall s,
    (forall c, In c (extend_changes tcmp s l) -> fst c = true /\ In (snd c) l) /\
    forall n, vacancies n (extend_changes tcmp s l) <= n.
  Proof.
    induction l as [|t l IH]; intros s; cbn [extend_changes]; [split; cbn; [tauto|auto]|].
    destruct (mem tcmp t s).
    - destruct (IH s) as [A B]; split; [|exact B]; intros c Hc; apply A in Hc as [? ?]; split; [assumption|now right].
    - destruct (IH (add tcmp t s)) as [A B]; split.
      + intros c [<-|Hc]; [split; [reflexivity|now left]|]; apply A in Hc as [? ?]; split; [assumption|now right].
      + intros n; cbn [vacancies]; etransitivity; [apply B|lia].
  Qed.

  Lemma rebuilt_reached keep l g : ig_from_iter cmp keep l = Some g -> ig_reached cmp keep [] [Extend l] g.
  Proof.
    intros E; exists [], bg_new, ig_new, [OUnit]; split; [reflexivity|]; split; [reflexivity|].
    unfold ig_from_iter in E; cbn [run ig_step]; rewrite E; reflexivity.
  Qed.

  Lemma rebuilt_exact keep keep' keep'' ops0 ops g spare hops hxs h :
    ig_reached cmp keep ops0 ops g -> run (bg_step cmp keep') bg_new hops = Some (hxs, h) ->
    exists x, entails_rebuilt cmp spare keep'' g h = Some x /\
      (x = true -> follows (contents (ops0 ++ ops)) (contents hops)) /\
      ((forall t, In t (contents (ops0 ++ ops)) -> NoDup (triple_comps t)) ->
       follows (contents (ops0 ++ ops)) (contents hops) -> x = true).
  Proof.
    intros Hg Hh; destruct (ig_contents L keep _ _ _ Hg) as (l & E & _ & _ & M & _).
    unfold entails_rebuilt; rewrite E.
    destruct (ig_from_iter_rep L keep'' l) as (g' & E' & _); rewrite E'.
    apply rebuilt_reached in E'.
    assert (C : forall t, In t (contents ([] ++ [Extend l])) <-> In t (contents (ops0 ++ ops))).
    { intros t; rewrite <- M; cbn; rewrite (in_fold_add_t L); cbn; tauto. }
    destruct (entails_sound _ _ _ _ _ spare _ _ _ E' Hh) as (x & Ex & S); exists x; split; [exact Ex|].
    split; [intros X; exact (follows_ext_l _ _ _ C (S X))|].
    intros N F; destruct (extend_log l []) as [A B].
    destruct (entails_exact _ _ _ _ _ spare _ _ _ E' Hh) as (y & Ey & Y).
    - cbn [app set_log set_changes]; rewrite app_nil_r; apply known_nodup.
      intros b t Ht; apply N, M; exact (proj2 (A _ Ht)).
    - left; cbn [app set_log set_changes]; rewrite app_nil_r; specialize (B 0); lia.
    - assert (x = y) as -> by congruence; apply Y; apply (follows_ext_l (contents (ops0 ++ ops))); [|exact F].
      intros t; symmetry; apply C.
  Qed.
End Program.

(** ** Entailed graphs not found *)
Definition n_iri (s : string) := Named (TIri (chars s)).
Definition n_blank (s : string) := Anonymous (chars s).
Definition n_cmp := local_cmp str_cmp str_cmp.
Definition n_graph (ops : list (op (triple local_term))) (keep : bool) : @igraph local_term :=
  match run (ig_step n_cmp keep) ig_new ops with Some (_, g) => g | None => ig_new end.
Definition n_bgraph (ops : list (op (triple local_term))) : @bgraph local_term :=
  match run (bg_step n_cmp true) bg_new ops with Some (_, g) => g | None => bg_new end.

Lemma n_reached keep ops xs :
  option_map fst (run (ig_step n_cmp keep) ig_new ops) = Some xs -> ig_reached n_cmp keep [] ops (n_graph ops keep).
Proof.
  intros H; exists [], bg_new, ig_new, xs; split; [reflexivity|]; split; [reflexivity|].
  unfold n_graph; destruct (run _ _ ops) as [[ys d]|]; cbn in H; [|discriminate]; injection H as <-; reflexivity.
Qed.

Lemma follows_part G H : incl H G -> follows G H.
Proof. intros I W (a & A); exists a; intros t Ht; apply A, I, Ht. Qed.

(** A graph that does not entail itself. *)
Definition n_twice : list (op (triple local_term)) :=
  [Insert (Triple (n_iri "ex:a") (n_iri "ex:a") (n_iri "ex:b"))].
Lemma entails_repeat_missed :
  exists ops g hxs h, forall keep spare keep',
    ig_reached n_cmp keep [] ops (g keep) /\ run (bg_step n_cmp true) bg_new ops = Some (hxs, h) /\
    vacancies 0 (set_log (triple_cmp n_cmp) [] ops) = 0 /\
    follows (spec_set (triple_cmp n_cmp) ops) (spec_set (triple_cmp n_cmp) ops) /\
    entails n_cmp spare (g keep) h = Some false /\ entails_rebuilt n_cmp spare keep' (g keep) h = Some false.
Proof.
  exists n_twice, (n_graph n_twice), [OBool true], (n_bgraph n_twice); intros keep spare keep'.
  split; [eapply n_reached; destruct keep; vm_compute; reflexivity|].
  split; [vm_compute; reflexivity|]; split; [vm_compute; reflexivity|]; split; [now apply follows_part|].
  split; destruct keep, keep', spare; vm_compute; reflexivity.
Qed.

(** After a removal. *)
Definition n_removed : list (op (triple local_term)) :=
  [Insert (Triple (n_iri "ex:a") (n_iri "ex:p") (n_iri "ex:b"));
   Insert (Triple (n_iri "ex:c") (n_iri "ex:q") (n_iri "ex:d"));
   Remove (Triple (n_iri "ex:a") (n_iri "ex:p") (n_iri "ex:b"))].
Definition n_asked : list (op (triple local_term)) :=
  [Insert (Triple (n_blank "_:x") (n_iri "ex:q") (n_iri "ex:d"))].
Lemma entails_removal_missed :
  exists ops g hops hxs h, forall keep spare keep',
    ig_reached n_cmp keep [] ops (g keep) /\ run (bg_step n_cmp true) bg_new hops = Some (hxs, h) /\
    (forall t, In t (spec_set (triple_cmp n_cmp) ops) -> NoDup (triple_comps t)) /\
    follows (spec_set (triple_cmp n_cmp) ops) (spec_set (triple_cmp n_cmp) hops) /\
    entails n_cmp spare (g keep) h = Some false /\ entails_rebuilt n_cmp spare keep' (g keep) h = Some true.
Proof.
  exists n_removed, (n_graph n_removed), n_asked, [OBool true], (n_bgraph n_asked); intros keep spare keep'.
  assert (ig_reached n_cmp keep [] n_removed (n_graph n_removed keep)) as Hg
    by (eapply n_reached; destruct keep; vm_compute; reflexivity).
  split; [exact Hg|]; split; [vm_compute; reflexivity|]; split.
  { intros t Ht; vm_compute in Ht; destruct Ht as [<-|[]]; repeat constructor; cbn; intuition discriminate. }
  split.
  { intros W (a & A); specialize (A _ (or_introl eq_refl)).
    exists (fun _ => thing_of W a (n_iri "ex:c")); intros t [<-|[]]; exact A. }
  split; destruct keep, keep', spare; vm_compute; reflexivity.
Qed.
