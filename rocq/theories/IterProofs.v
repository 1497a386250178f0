(** Proofs about the iterators as state machines (P_Iter.v). *)
From Coq Require Import List Bool Arith Lia.
Import ListNotations.
From Verif Require Import Base TripleModel TriplePatternModel QuadPatternModel TermModel SlabModel
  IResourceModel IndexedDatasetModel IndexedGraphModel PatternMapModel TraitModel IterModel IterSpec
  SetSpec ContainerSpec IndexedSpec Machine BaseProofs IndexedRunProofs IndexedGraphRunProofs.
Open Scope panic_scope.

(** ** Streams *)
Section Streams.
  Context {I X : Type} (next : I -> option (option X * I)).

  Lemma nth_seq_S (x : X) l n :
    map (nth_error (x :: l)) (seq 1 n) = map (nth_error l) (seq 0 n).
  Proof. rewrite <- seq_shift, map_map; reflexivity. Qed.
  Lemma nth_seq_nil n : map (nth_error (@nil X)) (seq 1 n) = map (nth_error []) (seq 0 n).
  Proof.
    rewrite <- seq_shift, map_map; apply map_ext; intros [|a]; reflexivity.
  Qed.

  Lemma streams_cons i x j l :
    next i = Some (Some x, j) -> streams next j l -> streams next i (x :: l).
  Proof.
    intros E H [|n].
    - now exists i.
    - destruct (H n) as (k & Hk); exists k; cbn [calls]; rewrite E; cbn [bind]; rewrite Hk; cbn [bind].
      cbn [seq map nth_error]; now rewrite nth_seq_S.
  Qed.
  Lemma streams_nil (P : I -> Prop) i :
    P i -> (forall i, P i -> exists j, next i = Some (None, j) /\ P j) -> streams next i [].
  Proof.
    intros Hi H n; revert i Hi; induction n as [|n IH]; intros i Hi.
    - now exists i.
    - destruct (H i Hi) as (j & E & Hj); destruct (IH j Hj) as (k & Hk); exists k.
      cbn [calls]; rewrite E; cbn [bind]; rewrite Hk; cbn [bind seq map nth_error].
      now rewrite nth_seq_nil.
  Qed.

  Lemma streams_uncons i l :
    streams next i l ->
    exists j, next i = Some (nth_error l 0, j) /\ streams next j (tl l).
  Proof.
    intros H; destruct (H 1) as (k & Hk); cbn [calls] in Hk.
    destruct (next i) as [[x j]|] eqn:E; [|discriminate]; cbn [bind] in Hk.
    exists j; split; [now inversion Hk|].
    intros n; destruct (H (S n)) as (m & Hm); cbn [calls] in Hm; rewrite E in Hm; cbn [bind] in Hm.
    destruct (calls next n j) as [[o m']|]; [|discriminate]; cbn [bind] in Hm.
    exists m'; assert (Ho : o = map (nth_error l) (seq 1 n)) by (injection Hm; congruence).
    rewrite Ho; f_equal; f_equal; destruct l; [now rewrite nth_seq_nil|now rewrite nth_seq_S].
  Qed.
  Lemma streams_cons_inv i x l :
    streams next i (x :: l) -> exists j, next i = Some (Some x, j) /\ streams next j l.
  Proof. apply streams_uncons. Qed.
  Lemma streams_nil_inv i :
    streams next i [] -> exists j, next i = Some (None, j) /\ streams next j [].
  Proof. apply streams_uncons. Qed.

  (** The list is determined. *)
  Lemma streams_nth i l k j :
    streams next i l -> calls next k i = Some j -> fst j = map (nth_error l) (seq 0 k).
  Proof. intros H E; destruct (H k) as (m & Hm); now rewrite Hm in E; inversion E. Qed.
End Streams.

(** ** Adaptors *)
Lemma list_streams {X} (l : list X) : streams (total list_next) l l.
Proof.
  induction l as [|x l IH].
  - apply (streams_nil _ (fun i => i = [])); [reflexivity|].
    intros i ->; now exists [].
  - now apply (streams_cons _ _ x l).
Qed.

Lemma map_streams {I X Y} (f : X -> Y) (next : I -> option X * I) i l :
  streams (total next) i l -> streams (total (map_next f next)) i (map f l).
Proof.
  revert i; induction l as [|x l IH]; intros i H.
  - apply (streams_nil _ (fun i => streams (total next) i [])); [exact H|].
    clear i H; intros i H; apply streams_nil_inv in H as (j & E & H); exists j; split; [|exact H].
    unfold total in *; unfold map_next; inversion E as [E']; now rewrite E'.
  - apply streams_cons_inv in H as (j & E & H); apply (streams_cons _ _ (f x) j); [|now apply IH].
    unfold total in *; unfold map_next; inversion E as [E']; now rewrite E'.
Qed.

Lemma or_else_streams {I J X} (na : I -> option X * I) (nb : J -> option X * J) i j l k :
  streams (total na) i l -> streams (total nb) j k ->
  streams (total (or_else_next na nb)) (i, j) (l ++ k).
Proof.
  revert i; induction l as [|x l IH]; intros i Hi Hj; cbn [app].
  - revert i j Hi Hj; induction k as [|x k IH]; intros i j Hi Hj.
    + apply (streams_nil _ (fun s => streams (total na) (fst s) [] /\ streams (total nb) (snd s) []));
        [now split|].
      intros [i1 j1] [H1 H2]; cbn [fst snd] in *.
      apply streams_nil_inv in H1 as (i2 & E1 & H1); apply streams_nil_inv in H2 as (j2 & E2 & H2).
      exists (i2, j2); split; [|now split].
      unfold total in *; unfold or_else_next; inversion E1 as [E1']; inversion E2 as [E2'].
      now rewrite E1', E2'.
    + apply streams_nil_inv in Hi as (i2 & E1 & Hi); apply streams_cons_inv in Hj as (j2 & E2 & Hj).
      apply (streams_cons _ _ x (i2, j2)); [|now apply IH].
      unfold total in *; unfold or_else_next; inversion E1 as [E1']; inversion E2 as [E2'].
      now rewrite E1', E2'.
  - apply streams_cons_inv in Hi as (i2 & E1 & Hi).
    apply (streams_cons _ _ x (i2, j)); [|now apply IH].
    unfold total in *; unfold or_else_next; inversion E1 as [E1']; now rewrite E1'.
Qed.

(** What an optional iterator yields. *)
Definition opt_items {A X} (f : A -> list X) (o : option A) : list X :=
  match o with Some a => f a | None => [] end.

Lemma option_streams {I X} (next : I -> option X * I) (o : option I) (f : I -> list X) :
  (forall i, o = Some i -> streams (total next) i (f i)) ->
  streams (total (option_next next)) o (opt_items f o).
Proof.
  intros H; destruct o as [i|]; cbn [opt_items].
  - specialize (H i eq_refl); revert H; generalize (f i) as l; clear f; intros l; revert i.
    induction l as [|x l IH]; intros i H.
    + apply (streams_nil _ (fun o => exists i, o = Some i /\ streams (total next) i []));
        [now exists i|].
      clear i H; intros o (i & -> & H); apply streams_nil_inv in H as (j & E & H).
      exists (Some j); split; [|now exists j].
      unfold total in *; cbn [option_next]; inversion E as [E']; now rewrite E'.
    + apply streams_cons_inv in H as (j & E & H); apply (streams_cons _ _ x (Some j)); [|now apply IH].
      unfold total in *; cbn [option_next]; inversion E as [E']; now rewrite E'.
  - apply (streams_nil _ (fun o => o = None)); [reflexivity|].
    intros o ->; now exists None.
Qed.

Lemma infallible_streams {I X E} (next : I -> option X * I) i l :
  streams (total next) i l -> streams (total (infallible_next (E:=E) next)) i (map Ok l).
Proof. exact (map_streams Ok next i l). Qed.
Lemma t2q_streams {I R} (next : I -> option (triple R) * I) i l :
  streams (total next) i l ->
  streams (total (t2q_next next)) i (map (fun t => into_quad t None) l).
Proof. exact (map_streams _ next i l). Qed.

(** ** Terms *)
Lemma terms_of_streams {I J} (iris : I -> option cow * I) (lits : J -> option literal_cow * J) i j l k :
  streams (total iris) i l -> streams (total lits) j k ->
  streams (total (terms_of_next iris lits)) (i, j) (map CIri l ++ map CLit k).
Proof. intros Hi Hj; apply or_else_streams; now apply map_streams. Qed.
Lemma local_terms_of_streams {I J K} (iris : I -> option cow * I) (lits : J -> option literal_cow * J)
    (bs : K -> option cow * K) i j b l k m :
  streams (total iris) i l -> streams (total lits) j k -> streams (total bs) b m ->
  streams (total (local_terms_of_next iris lits bs)) (i, j, b)
    (map CNamed (map CIri l ++ map CLit k) ++ map CAnonymous m).
Proof.
  intros Hi Hj Hb; apply or_else_streams; apply map_streams; [|exact Hb].
  now apply terms_of_streams.
Qed.

(** ** Values of a map *)
Section Values.
  Context {V T : Type} (teqb : T -> T -> bool).

  Lemma opt_list_streams (o : option (list V)) :
    streams (total (option_next list_next)) o (opt_items (fun l => l) o).
  Proof. apply option_streams; intros i _; apply list_streams. Qed.
  Lemma opt_when {A X} (f : A -> list X) b a :
    opt_items f (when b a) = if b then f a else [].
  Proof. now destruct b. Qed.
  Lemma opt_get {A} (f : A -> list V) k (h : list (T * A)) :
    opt_items f (hm_get teqb k h) = hm_values teqb k f h.
  Proof. reflexivity. Qed.

  Lemma mga_streams (m : m_ga V T) t :
    streams (total mga_next) (mga_values teqb m t) (mga_get teqb m t).
  Proof.
    unfold mga_get, mga_values; rewrite app_assoc, <- (opt_when (fun l => l)), <- (opt_get (fun l => l)).
    repeat apply or_else_streams; auto using list_streams, opt_list_streams.
  Qed.
  Lemma mgg_streams (m : m_gg V T) t :
    streams (total mgg_next) (mgg_values teqb m t) (mgg_get teqb m t).
  Proof.
    unfold mgg_get, mgg_values; rewrite <- (opt_get (fun l => l)).
    repeat apply or_else_streams; auto using list_streams, opt_list_streams.
  Qed.
  Lemma maa_streams (m : m_aa V T) t :
    streams (total maa_next) (maa_values teqb m t) (maa_get teqb m t).
  Proof.
    unfold maa_get, maa_values.
    rewrite !app_assoc, <- !(opt_when (fun l => l)), <- (opt_get (fun l => l)).
    repeat apply or_else_streams; auto using list_streams, opt_list_streams.
  Qed.
  Lemma mag_streams (m : m_ag V T) t :
    streams (total mag_next) (mag_values teqb m t) (mag_get teqb m t).
  Proof.
    unfold mag_get, mag_values; rewrite app_assoc, <- (opt_when (fun l => l)), <- (opt_get (fun l => l)).
    repeat apply or_else_streams; auto using list_streams, opt_list_streams.
  Qed.

  (** A nested optional iterator. *)
  Lemma nested_streams {A I} (next : I -> option V * I) (st : A -> I) (f : A -> list V) (o : option A) :
    (forall a, streams (total next) (st a) (f a)) ->
    streams (total (option_next next)) (option_map st o) (opt_items f o).
  Proof.
    intros H; destruct o as [a|]; cbn [option_map opt_items].
    - apply (option_streams next (Some (st a)) (fun _ => f a)); intros i E; inversion E; apply H.
    - apply (option_streams next None (fun _ => [])); discriminate.
  Qed.
  Lemma option_map_when {A B} (f : A -> B) b a : option_map f (when b a) = when b (f a).
  Proof. now destruct b. Qed.

  Lemma mgs_streams (m : m_gs V T) t :
    streams (total mgs_next) (mgs_values teqb m t) (mgs_get teqb m t).
  Proof.
    unfold mgs_get, mgs_values; rewrite <- opt_get.
    apply or_else_streams; [apply mga_streams|].
    apply nested_streams; intros a; apply mgg_streams.
  Qed.
  Lemma mas_streams (m : m_as V T) t :
    streams (total mas_next) (mas_values teqb m t) (mas_get teqb m t).
  Proof.
    unfold mas_get, mas_values.
    rewrite app_assoc, <- (opt_when (fun a => mag_get teqb a t)), <- opt_get,
      <- (option_map_when (fun a => mag_values teqb a t)).
    apply or_else_streams; [apply or_else_streams; [apply maa_streams|]|];
      apply nested_streams; intros a; apply mag_streams.
  Qed.
  Lemma tpm_streams (m : tpm V T) t :
    streams (total tpm_next) (tpm_values teqb m t) (tpm_get teqb m t).
  Proof.
    unfold tpm_get, tpm_values; rewrite <- opt_get.
    apply or_else_streams; [apply mas_streams|].
    apply nested_streams; intros a; apply mgs_streams.
  Qed.
End Values.

(** ** Provided methods of the traits *)
Section Provided.
  Context {R I : Type} (next : I -> option (quad R) * I) (start : cqp R -> I).

  Lemma quad_objects_none i l :
    streams (total next) i l ->
    streams (total (quad_objects_next next)) (QObjects None i) (map q_o l).
  Proof.
    revert i; induction l as [|x l IH]; intros i H.
    - apply (streams_nil _ (fun s => exists i, s = QObjects None i /\ streams (total next) i []));
        [now exists i|].
      clear i H; intros s (i & -> & H); apply streams_nil_inv in H as (j & E & H).
      exists (QObjects None j); split; [|now exists j].
      unfold total in *; unfold quad_objects_next; cbn [qo_first qo_inner]; inversion E as [E'].
      now rewrite E'.
    - apply streams_cons_inv in H as (j & E & H).
      apply (streams_cons _ _ (q_o x) (QObjects None j)); [|now apply IH].
      unfold total in *; unfold quad_objects_next; cbn [qo_first qo_inner]; inversion E as [E'].
      now rewrite E'.
  Qed.
  Lemma quad_objects_streams g s p l :
    streams (total next) (start (cq_from_option_quad (Quad (Some s) (Some p) None (Some g)))) l ->
    streams (total (quad_objects_next next)) (quad_objects start g s p) (map q_o l).
  Proof. apply quad_objects_none. Qed.

  Lemma quad_predicates_objects_streams g s (ls : R -> list (quad R)) ps :
    (forall p, In p ps ->
       streams (total next) (start (CQ_GivenS s (QG_GivenP p (QGG_Any (QGGA_Given g))))) (ls p)) ->
    exists items,
      streams (total (quad_predicates_objects_next next start g s)) ps items /\
      Forall2 (fun p it => fst it = p /\
                 streams (total (quad_objects_next next)) (snd it) (map q_o (ls p)))
        (filter (fun p => negb (length (ls p) =? 0)) ps) items.
  Proof.
    induction ps as [|p ps IH]; intros H.
    - exists []; split; [|constructor].
      apply (streams_nil _ (fun l => l = [])); [reflexivity|].
      intros i ->; now exists [].
    - destruct IH as (its & Hs & Hf); [intros r Hr; apply H; now right|].
      specialize (H p (or_introl eq_refl)); cbn [filter].
      destruct (ls p) as [|q l] eqn:El; cbn [length Nat.eqb negb].
      + exists its; split; [|exact Hf].
        apply streams_nil_inv in H as (j & E & _); unfold total in E; inversion E as [E'].
        intros n; specialize (Hs n); destruct n as [|n]; [now exists (p :: ps)|].
        destruct Hs as (k & Hk); exists k; rewrite <- Hk; cbn [calls].
        unfold total at 1 3; cbn [quad_predicates_objects_next]; now rewrite E'.
      + apply streams_cons_inv in H as (j & E & H); unfold total in E; inversion E as [E'].
        exists ((p, QObjects (Some (q_o q)) j) :: its); split.
        * eapply streams_cons; [|exact Hs].
          unfold total; cbn [quad_predicates_objects_next]; now rewrite E'.
        * constructor; [|exact Hf]; split; [reflexivity|]; cbn [snd]; rewrite El; cbn [map].
          eapply streams_cons; [reflexivity|]; now apply quad_objects_none.
  Qed.
End Provided.

Section ProvidedGraph.
  Context {R I : Type} (next : I -> option (triple R) * I) (start : ctp R -> I).

  Lemma triple_objects_none i l :
    streams (total next) i l ->
    streams (total (triple_objects_next next)) (TObjects None i) (map t_o l).
  Proof.
    revert i; induction l as [|x l IH]; intros i H.
    - apply (streams_nil _ (fun s => exists i, s = TObjects None i /\ streams (total next) i []));
        [now exists i|].
      clear i H; intros s (i & -> & H); apply streams_nil_inv in H as (j & E & H).
      exists (TObjects None j); split; [|now exists j].
      unfold total in *; unfold triple_objects_next; cbn [to_first to_inner]; inversion E as [E'].
      now rewrite E'.
    - apply streams_cons_inv in H as (j & E & H).
      apply (streams_cons _ _ (t_o x) (TObjects None j)); [|now apply IH].
      unfold total in *; unfold triple_objects_next; cbn [to_first to_inner]; inversion E as [E'].
      now rewrite E'.
  Qed.
  Lemma triple_objects_streams s p l :
    streams (total next) (start (ct_from_option_triple (Triple (Some s) (Some p) None))) l ->
    streams (total (triple_objects_next next)) (triple_objects start s p) (map t_o l).
  Proof. apply triple_objects_none. Qed.

  Lemma triple_predicates_objects_streams s (ls : R -> list (triple R)) ps :
    (forall p, In p ps ->
       streams (total next) (start (CT_GivenS s (TG_GivenP p TGG_Any))) (ls p)) ->
    exists items,
      streams (total (triple_predicates_objects_next next start s)) ps items /\
      Forall2 (fun p it => fst it = p /\
                 streams (total (triple_objects_next next)) (snd it) (map t_o (ls p)))
        (filter (fun p => negb (length (ls p) =? 0)) ps) items.
  Proof.
    induction ps as [|p ps IH]; intros H.
    - exists []; split; [|constructor].
      apply (streams_nil _ (fun l => l = [])); [reflexivity|].
      intros i ->; now exists [].
    - destruct IH as (its & Hs & Hf); [intros r Hr; apply H; now right|].
      specialize (H p (or_introl eq_refl)); cbn [filter].
      destruct (ls p) as [|q l] eqn:El; cbn [length Nat.eqb negb].
      + exists its; split; [|exact Hf].
        apply streams_nil_inv in H as (j & E & _); unfold total in E; inversion E as [E'].
        intros n; specialize (Hs n); destruct n as [|n]; [now exists (p :: ps)|].
        destruct Hs as (k & Hk); exists k; rewrite <- Hk; cbn [calls].
        unfold total at 1 3; cbn [triple_predicates_objects_next]; now rewrite E'.
      + apply streams_cons_inv in H as (j & E & H); unfold total in E; inversion E as [E'].
        exists ((p, TObjects (Some (t_o q)) j) :: its); split.
        * eapply streams_cons; [|exact Hs].
          unfold total; cbn [triple_predicates_objects_next]; now rewrite E'.
        * constructor; [|exact Hf]; split; [reflexivity|]; cbn [snd]; rewrite El; cbn [map].
          eapply streams_cons; [reflexivity|]; now apply triple_objects_none.
  Qed.

  Lemma graph_streams c l :
    streams (total next) (start (fst (cq_into_triple c))) l ->
    streams (total (graph_next next)) (graph_start start c)
      match snd (cq_into_triple c) with
      | PG_Given None | PG_Any => map (fun t => into_quad t None) l
      | _ => []
      end.
  Proof.
    intros H; unfold graph_next, graph_start; destruct (cq_into_triple c) as [t g]; cbn [fst snd] in *.
    assert (A : streams (total (option_next (t2q_next next))) (Some (start t))
                  (map (fun t => into_quad t None) l)).
    { apply (option_streams _ (Some (start t)) (fun _ => map (fun t => into_quad t None) l)).
      intros i E; inversion E; now apply t2q_streams. }
    assert (B : streams (total (option_next (t2q_next next))) None []).
    { apply (option_streams (t2q_next next) None (fun _ => [])); discriminate. }
    destruct g as [| | | |[o|]]; auto.
  Qed.
End ProvidedGraph.

(** ** Constraints *)
Section Constraints.
  Context {Q : Type}.

  Lemma drop_lt_idem i l : drop_lt i (drop_lt i l) = drop_lt i l.
  Proof.
    induction l as [|j l IH]; [reflexivity|]; cbn [drop_lt].
    destruct (j <? i) eqn:E; [exact IH|]; cbn [drop_lt]; now rewrite E.
  Qed.
  Lemma s_next_idem (c : constraint Q) i : s_next (snd (s_next c i)) i = s_next c i.
  Proof. destruct c; cbn [s_next snd]; try reflexivity; now rewrite drop_lt_idem. Qed.
  Lemma c_next_idem (c : constraint Q) i q : c_next (snd (c_next c i q)) i q = c_next c i q.
  Proof. destruct c; cbn [c_next snd]; try reflexivity; now rewrite drop_lt_idem. Qed.
End Constraints.

(** ** Pattern matching on datasets *)
Lemma pm_next_poll fuel cap qs m :
  pm_next fuel cap qs m =
  match pm_poll fuel cap qs m with
  | None => None
  | Some (None, _) => Some None
  | Some (Some (i, q), m) => Some (Some (i, q, m))
  end.
Proof.
  revert m; induction fuel as [|fuel IH]; intros m; [reflexivity|].
  cbn [pm_next pm_poll]; destruct (pm_i m <? cap); [|reflexivity].
  destruct (s_next (pm_s m) (pm_i m)) as [[i|] cs]; [|reflexivity].
  destruct (sget qs i) as [q|]; [|reflexivity].
  destruct (c_next (pm_p m) i q) as [[|[j|]] cp]; [|apply IH|reflexivity].
  destruct (c_next (pm_o m) i q) as [[|[j|]] co]; [|apply IH|reflexivity].
  destruct (c_next (pm_g m) i q) as [[|[j|]] cg]; [reflexivity|apply IH|reflexivity].
Qed.

Lemma pm_poll_fused fuel cap qs m m' :
  pm_poll fuel cap qs m = Some (None, m') ->
  forall f, pm_poll (S f) cap qs m' = Some (None, m').
Proof.
  revert m; induction fuel as [|fuel IH]; intros m H f; [discriminate|].
  cbn [pm_poll] in H; destruct (pm_i m <? cap) eqn:Ei.
  2:{ inversion H; subst m'; cbn [pm_poll]; now rewrite Ei. }
  pose proof (s_next_idem (pm_s m) (pm_i m)) as Is.
  destruct (s_next (pm_s m) (pm_i m)) as [[i|] cs]; cbn [snd] in Is.
  2:{ inversion H; subst m'; cbn [pm_poll pm_i pm_s pm_p pm_o pm_g]; now rewrite Ei, Is. }
  destruct (sget qs i) as [q|] eqn:Eq.
  2:{ inversion H; subst m'; cbn [pm_poll pm_i pm_s pm_p pm_o pm_g]; now rewrite Ei, Is, Eq. }
  pose proof (c_next_idem (pm_p m) i q) as Ip.
  destruct (c_next (pm_p m) i q) as [[|[j|]] cp]; cbn [snd] in Ip; [|eapply IH; exact H|].
  2:{ inversion H; subst m'; cbn [pm_poll pm_i pm_s pm_p pm_o pm_g]; now rewrite Ei, Is, Eq, Ip. }
  pose proof (c_next_idem (pm_o m) i q) as Io.
  destruct (c_next (pm_o m) i q) as [[|[j|]] co]; cbn [snd] in Io; [|eapply IH; exact H|].
  2:{ inversion H; subst m'; cbn [pm_poll pm_i pm_s pm_p pm_o pm_g]; now rewrite Ei, Is, Eq, Ip, Io. }
  pose proof (c_next_idem (pm_g m) i q) as Ig.
  destruct (c_next (pm_g m) i q) as [[|[j|]] cg]; cbn [snd] in Ig; [discriminate|eapply IH; exact H|].
  inversion H; subst m'; cbn [pm_poll pm_i pm_s pm_p pm_o pm_g]; now rewrite Ei, Is, Eq, Ip, Io, Ig.
Qed.

Section Dataset.
  Context {R : Type} (cmp : R -> R -> comparison).

  Lemma pm_ended cap (d : @idataset R) m :
    pm_poll (S cap) cap (id_quads d) m = Some (None, m) ->
    pm_call cap d m = Some (None, m).
  Proof. intros E; unfold pm_call; now rewrite E. Qed.

  Lemma pm_collect_streams fuel cap (d : @idataset R) m l :
    pm_collect fuel cap d m = Some l -> streams (pm_call cap d) m l.
  Proof.
    revert m l; induction fuel as [|fuel IH]; intros m l H; [discriminate|].
    cbn [pm_collect] in H; rewrite pm_next_poll in H.
    destruct (pm_poll (S cap) cap (id_quads d) m) as [[[[i q]|] m']|] eqn:E; cbn [bind] in H; [| |discriminate].
    - destruct (i_quad_with_resources (id_resources d) q) as [x|] eqn:Ex; [|discriminate]; cbn [bind] in H.
      destruct (pm_collect fuel cap d m') as [k|] eqn:Ek; [|discriminate]; inversion H; subst l.
      apply (streams_cons _ _ x m'); [|now apply IH].
      unfold pm_call; rewrite E; cbn [bind]; now rewrite Ex.
    - inversion H; subst l.
      pose proof (pm_poll_fused _ _ _ _ _ E cap) as F.
      apply (streams_nil _ (fun s => s = m \/ s = m')); [now left|].
      intros s [->| ->]; exists m'; (split; [|now right]).
      + unfold pm_call; now rewrite E.
      + now apply pm_ended.
  Qed.

  Lemma pm_extract_calls n cap (d : @idataset R) m l d' :
    pm_extract cmp n cap d m = Some (l, d') ->
    exists m', calls (extract_call cmp cap) n (d, m) = Some (map (nth_error l) (seq 0 n), (d', m')).
  Proof.
    revert d m l; induction n as [|n IH]; intros d m l H.
    - inversion H; subst; now exists m.
    - cbn [pm_extract] in H; rewrite pm_next_poll in H.
      destruct (pm_poll (S cap) cap (id_quads d) m) as [[[[i q]|] m1]|] eqn:E; cbn [bind] in H;
        [| |discriminate].
      + destruct (i_quad_with_resources (id_resources d) q) as [x|] eqn:Ex; [|discriminate].
        cbn [bind] in H.
        destruct (id_remove_by_index cmp d i true) as [d1|] eqn:Er; [|discriminate]; cbn [bind] in H.
        destruct (pm_extract cmp n cap d1 m1) as [[k d2]|] eqn:Ek; [|discriminate]; cbn [bind] in H.
        inversion H; subst; destruct (IH _ _ _ Ek) as (m' & Em); exists m'.
        cbn [calls]; unfold extract_call at 1; rewrite E; cbn [bind]; rewrite Ex; cbn [bind].
        rewrite Er; cbn [bind]; rewrite Em; cbn [bind seq map nth_error]; now rewrite nth_seq_S.
      + inversion H; subst.
        pose proof (pm_poll_fused _ _ _ _ _ E cap) as F.
        assert (G : forall k, calls (extract_call cmp cap) k (d', m1) =
                              Some (map (nth_error []) (seq 0 k), (d', m1))).
        { induction k as [|k IHk]; [reflexivity|]; cbn [calls]; unfold extract_call at 1; rewrite F.
          cbn [bind]; rewrite IHk; cbn [bind seq map nth_error]; now rewrite nth_seq_nil. }
        exists m1; cbn [calls]; unfold extract_call at 1; rewrite E; cbn [bind]; rewrite G.
        cbn [bind seq map nth_error]; now rewrite nth_seq_nil.
  Qed.
  Lemma pm_extract_stable n cap (d : @idataset R) m l d' k :
    pm_extract cmp n cap d m = Some (l, d') -> length l <= k <= n ->
    pm_extract cmp k cap d m = Some (l, d').
  Proof.
    revert d m l k; induction n as [|n IH]; intros d m l k H Hk.
    - now replace k with 0 by lia.
    - cbn [pm_extract] in H.
      destruct (pm_next (S cap) cap (id_quads d) m) as [[[[i q] m1]|]|] eqn:E; cbn [bind] in H; [| |discriminate].
      + destruct (i_quad_with_resources (id_resources d) q) as [x|] eqn:Ex; [|discriminate].
        cbn [bind] in H.
        destruct (id_remove_by_index cmp d i true) as [d1|] eqn:Er; [|discriminate]; cbn [bind] in H.
        destruct (pm_extract cmp n cap d1 m1) as [[k1 d2]|] eqn:Ek; [|discriminate]; cbn [bind] in H.
        inversion H; subst; destruct k as [|k]; cbn [length] in Hk; [lia|].
        cbn [pm_extract]; rewrite E; cbn [bind]; rewrite Ex; cbn [bind]; rewrite Er; cbn [bind].
        rewrite (IH _ _ _ k Ek) by lia; reflexivity.
      + inversion H; subst; destruct k as [|k]; [reflexivity|].
        cbn [pm_extract]; rewrite E; reflexivity.
  Qed.

  Lemma id_query_streams (d : @idataset R) spare c l :
    id_pattern_matching cmp d spare c = Some l ->
    exists m, pm_new cmp d c = Some m /\ streams (pm_call (capacity d spare) d) m l.
  Proof.
    unfold id_pattern_matching; intros H.
    destruct (pm_new cmp d c) as [m|]; [|discriminate]; cbn [bind] in H.
    exists m; split; [reflexivity|]; eapply pm_collect_streams; exact H.
  Qed.
  Lemma id_multi_streams (d : @idataset R) spare c l :
    id_multi_pattern_matching cmp d spare c = Some l ->
    exists m, pm_new_multi cmp d c = Some m /\ streams (pm_call (capacity d spare) d) m l.
  Proof.
    unfold id_multi_pattern_matching; intros H.
    destruct (pm_new_multi cmp d c) as [m|]; [|discriminate]; cbn [bind] in H.
    exists m; split; [reflexivity|]; eapply pm_collect_streams; exact H.
  Qed.

  Lemma nth_firstn {X} (l : list X) n :
    map (nth_error (firstn n l)) (seq 0 n) = map (nth_error l) (seq 0 n).
  Proof.
    revert l; induction n as [|n IH]; intros l; [reflexivity|].
    destruct l as [|x l]; [reflexivity|].
    cbn [firstn seq map nth_error]; now rewrite !nth_seq_S, IH.
  Qed.
End Dataset.

(** ** Pattern matching on graphs *)
Lemma gm_next_poll fuel cap ts m :
  gm_next fuel cap ts m =
  match gm_poll fuel cap ts m with
  | None => None
  | Some (None, _) => Some None
  | Some (Some (i, t), m) => Some (Some (i, t, m))
  end.
Proof.
  revert m; induction fuel as [|fuel IH]; intros m; [reflexivity|].
  cbn [gm_next gm_poll]; destruct (gm_i m <? cap); [|reflexivity].
  destruct (s_next (gm_s m) (gm_i m)) as [[i|] cs]; [|reflexivity].
  destruct (sget ts i) as [q|]; [|reflexivity].
  destruct (c_next (gm_p m) i q) as [[|[j|]] cp]; [|apply IH|reflexivity].
  destruct (c_next (gm_o m) i q) as [[|[j|]] co]; [reflexivity|apply IH|reflexivity].
Qed.
Lemma gm_poll_fused fuel cap ts m m' :
  gm_poll fuel cap ts m = Some (None, m') ->
  forall f, gm_poll (S f) cap ts m' = Some (None, m').
Proof.
  revert m; induction fuel as [|fuel IH]; intros m H f; [discriminate|].
  cbn [gm_poll] in H; destruct (gm_i m <? cap) eqn:Ei.
  2:{ inversion H; subst m'; cbn [gm_poll]; now rewrite Ei. }
  pose proof (s_next_idem (gm_s m) (gm_i m)) as Is.
  destruct (s_next (gm_s m) (gm_i m)) as [[i|] cs]; cbn [snd] in Is.
  2:{ inversion H; subst m'; cbn [gm_poll gm_i gm_s gm_p gm_o]; now rewrite Ei, Is. }
  destruct (sget ts i) as [q|] eqn:Eq.
  2:{ inversion H; subst m'; cbn [gm_poll gm_i gm_s gm_p gm_o]; now rewrite Ei, Is, Eq. }
  pose proof (c_next_idem (gm_p m) i q) as Ip.
  destruct (c_next (gm_p m) i q) as [[|[j|]] cp]; cbn [snd] in Ip; [|eapply IH; exact H|].
  2:{ inversion H; subst m'; cbn [gm_poll gm_i gm_s gm_p gm_o]; now rewrite Ei, Is, Eq, Ip. }
  pose proof (c_next_idem (gm_o m) i q) as Io.
  destruct (c_next (gm_o m) i q) as [[|[j|]] co]; cbn [snd] in Io; [discriminate|eapply IH; exact H|].
  inversion H; subst m'; cbn [gm_poll gm_i gm_s gm_p gm_o]; now rewrite Ei, Is, Eq, Ip, Io.
Qed.

Section Graph.
  Context {R : Type} (cmp : R -> R -> comparison).

  Lemma gm_collect_streams fuel cap (g : @igraph R) m l :
    gm_collect fuel cap g m = Some l -> streams (gm_call cap g) m l.
  Proof.
    revert m l; induction fuel as [|fuel IH]; intros m l H; [discriminate|].
    cbn [gm_collect] in H; rewrite gm_next_poll in H.
    destruct (gm_poll (S cap) cap (ig_triples g) m) as [[[[i q]|] m']|] eqn:E; cbn [bind] in H; [| |discriminate].
    - destruct (i_triple_with_resources (ig_resources g) q) as [x|] eqn:Ex; [|discriminate]; cbn [bind] in H.
      destruct (gm_collect fuel cap g m') as [k|] eqn:Ek; [|discriminate]; inversion H; subst l.
      apply (streams_cons _ _ x m'); [|now apply IH].
      unfold gm_call; rewrite E; cbn [bind]; now rewrite Ex.
    - inversion H; subst l.
      pose proof (gm_poll_fused _ _ _ _ _ E cap) as F.
      apply (streams_nil _ (fun s => s = m \/ s = m')); [now left|].
      intros s [->| ->]; exists m'; (split; [|now right]); unfold gm_call; [now rewrite E|now rewrite F].
  Qed.
  Lemma ig_query_streams (g : @igraph R) spare c l :
    ig_pattern_matching cmp g spare c = Some l ->
    exists m, gm_new cmp g c = Some m /\ streams (gm_call (gcapacity g spare) g) m l.
  Proof.
    unfold ig_pattern_matching; intros H.
    destruct (gm_new cmp g c) as [m|]; [|discriminate]; cbn [bind] in H.
    exists m; split; [reflexivity|]; eapply gm_collect_streams; exact H.
  Qed.
End Graph.

(** ** Histories *)
Section Histories.
  Context {R : Type} (cmp : R -> R -> comparison).
  Hypothesis L : ord_laws cmp.
  Context (keep : bool).

  Lemma id_query_next ops0 ops xs d spare c :
    id_reached cmp keep ops0 ops xs d ->
    exists m l, pm_new cmp d c = Some m /\ id_pattern_matching cmp d spare c = Some l /\
      streams (pm_call (capacity d spare) d) m l.
  Proof.
    intros H; destruct (id_pattern_sound L keep _ _ _ _ spare c H) as (l & E & _).
    destruct (id_query_streams cmp d spare c l E) as (m & Em & Hm); exists m, l; auto.
  Qed.
  Lemma id_multi_next ops0 ops xs d spare c :
    id_reached cmp keep ops0 ops xs d ->
    exists m l, pm_new_multi cmp d c = Some m /\ id_multi_pattern_matching cmp d spare c = Some l /\
      streams (pm_call (capacity d spare) d) m l.
  Proof.
    intros H; destruct (id_multi_sound L keep _ _ _ _ spare c H) as (l & E & _).
    destruct (id_multi_streams cmp d spare c l E) as (m & Em & Hm); exists m, l; auto.
  Qed.
  Lemma id_extract_next ops0 ops xs d spare c :
    id_reached cmp keep ops0 ops xs d ->
    exists m l d_end, pm_new cmp d c = Some m /\ id_pattern_matching cmp d spare c = Some l /\
      forall n, exists d' m',
        calls (extract_call cmp (capacity d spare)) n (d, m) =
          Some (map (nth_error l) (seq 0 n), (d', m')) /\
        id_extract cmp d spare c n = Some (firstn n l, d') /\
        (length l <= n -> d' = d_end).
  Proof.
    intros H; destruct (id_query_next _ _ _ _ spare c H) as (m & l & Em & El & _).
    destruct (id_extract_any L keep _ _ _ _ spare c (length l) H)
      as (l0 & d_end & _ & El0 & Ee & _).
    rewrite El in El0; inversion El0; subst l0; rewrite firstn_all in Ee.
    exists m, l, d_end; split; [exact Em|]; split; [exact El|]; intros n.
    destruct (id_extract_any L keep _ _ _ _ spare c n H) as (l0 & d' & _ & El1 & En & _).
    rewrite El in El1; inversion El1; subst l0; clear El0 El1.
    unfold id_extract in En, Ee; rewrite Em in En, Ee; cbn [bind] in En, Ee.
    destruct (pm_extract_calls cmp _ _ _ _ _ _ En) as (m' & Ec).
    exists d', m'; split; [now rewrite Ec, nth_firstn|]; split.
    - unfold id_extract; rewrite Em; exact En.
    - intros Hn; rewrite firstn_all2 in En by exact Hn.
      pose proof (pm_extract_stable cmp _ _ _ _ _ _ (length l) En (conj (le_n _) Hn)) as Es.
      rewrite Es in Ee; now inversion Ee.
  Qed.
  Lemma ig_query_next ops0 ops g spare c :
    ig_reached cmp keep ops0 ops g ->
    exists m l, gm_new cmp g c = Some m /\ ig_pattern_matching cmp g spare c = Some l /\
      streams (gm_call (gcapacity g spare) g) m l.
  Proof.
    intros H; destruct (ig_pattern_sound L keep _ _ _ spare c H) as (l & E & _).
    destruct (ig_query_streams cmp g spare c l E) as (m & Em & Hm); exists m, l; auto.
  Qed.
End Histories.
