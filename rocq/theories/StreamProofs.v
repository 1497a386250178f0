(** Any serializer and any source. *)
From Coq Require Import List Arith Lia.
Import ListNotations.
From Verif Require Import Base TripleModel SetSpec ContainerSpec Machine BaseProofs BTreeDatasetModel
  BTreeDatasetProofs BTreeGraphModel BTreeGraphProofs IndexedDatasetModel IndexedRunProofs
  IndexedGraphModel IndexedGraphRunProofs StreamModel StreamSpec.
Open Scope panic_scope.

Section Ser.
  Context {W X Ok Err : Type} (begin : W -> option nat -> W * (unit + Err))
    (elem : W -> X -> W * (unit + Err)) (fin : W -> W * (Ok + Err)).
  Notation talk := (talk begin elem fin).

  (** The part after [serialize_seq]. *)
  Lemma each_spec l : forall w, exists h,
    talk w h (fst (ser_each elem fin w l)) /\
    ((exists o h', snd (ser_each elem fin w l) = inl o /\ map fst h = map CElem l ++ [CEnd] /\
        (forall c a, In (c, a) h -> ~ refused a) /\ h = h' ++ [(CEnd, Result o)]) \/
     (exists e h' c rest, snd (ser_each elem fin w l) = inr e /\ h = h' ++ [(c, Refused e)] /\
        map CElem l ++ [CEnd] = map fst h' ++ c :: rest /\
        forall c' a, In (c', a) h' -> ~ refused a)).
  Proof.
    induction l as [|x l IH]; intros w; cbn [ser_each].
    - destruct (fin w) as [w' [o|e]] eqn:F; cbn.
      + exists [(CEnd, Result o)]; split; [econstructor; [econstructor; eassumption|constructor]|].
        left; exists o, []; repeat split.
        intros c a [E|[]] [e G]; congruence.
      + exists [(CEnd, Refused e)]; split; [econstructor; [econstructor; eassumption|constructor]|].
        right; exists e, [], CEnd, []; repeat split. intros c a [].
    - destruct (elem w x) as [w' [[]|e]] eqn:F.
      + destruct (IH w') as (h & T & H). exists ((CElem x, Accepted) :: h).
        split; [econstructor; [econstructor; eassumption|exact T]|].
        destruct H as [(o & h' & A & B & C & D)|(e & h' & c & rest & A & B & C & D)].
        * left; exists o, ((CElem x, Accepted) :: h'); repeat split; [exact A|cbn; now rewrite B| |now rewrite D].
          intros c a [E|I] [e G]; [congruence|apply (C _ _ I); now exists e].
        * right; exists e, ((CElem x, Accepted) :: h'), c, rest; repeat split; [exact A|now rewrite B|cbn; now rewrite C|].
          intros c' a [E|I] [e' G]; [congruence|apply (D _ _ I); now exists e'].
      + cbn; exists [(CElem x, Refused e)]; split; [econstructor; [econstructor; eassumption|constructor]|].
        right; exists e, [], (CElem x), (map CElem l ++ [CEnd]); repeat split. intros c a [].
  Qed.

  Lemma into_spec n l w : n = length l ->
    exists w' r, ser_into begin elem fin (Some (n, l)) w = Some (w', r) /\
      given begin elem fin l w w' r.
  Proof.
    intros ->; cbn. destruct (begin w (Some (length l))) as [w' [[]|e]] eqn:F.
    - destruct (each_spec l w') as (h & T & H).
      destruct (ser_each elem fin w' l) as [w'' r] eqn:G; cbn in T, H.
      exists w'', r; split; [reflexivity|]. exists ((CBegin (Some (length l)), Accepted) :: h).
      split; [econstructor; [econstructor; eassumption|exact T]|].
      destruct H as [(o & h' & A & B & C & D)|(e & h' & c & rest & A & B & C & D)].
      + left; exists o; repeat split; [exact A|cbn; unfold script; now rewrite B| |].
        * intros c a [E|I] [e K]; [congruence|apply (C _ _ I); now exists e].
        * exists ((CBegin (Some (length l)), Accepted) :: h'); now rewrite D.
      + right; exists e, ((CBegin (Some (length l)), Accepted) :: h'), c, rest; repeat split;
          [exact A|now rewrite B|unfold script; cbn; now rewrite C|].
        intros c' a [E|I] [e' K]; [congruence|apply (D _ _ I); now exists e'].
    - exists w', (inr e); split; [reflexivity|].
      exists [(CBegin (Some (length l)), Refused e)]; split; [econstructor; [econstructor; eassumption|constructor]|].
      right; exists e, [], (CBegin (Some (length l))), (map CElem l ++ [CEnd]); repeat split. intros c a [].
  Qed.
End Ser.

Section De.
  Context {W C X Err : Type} (next : W -> W * (option X + Err)).
  Context (insert : C -> X -> option (bool * C)) (extend : C -> list X -> option C).
  Context (extend_nil : forall c, extend c [] = Some c)
    (extend_cons : forall c x l, extend c (x :: l) = ('(_, c') <- insert c x ;; extend c' l)).

  Lemma from_spec n : forall c w, (forall l, extend c l <> None) ->
    exists res, de_from next insert n c w = Some res /\
      reads next (fun l c' => extend c l = Some c') n w res.
  Proof.
    induction n as [|n IH]; intros c w H; cbn [de_from].
    - exists None; split; [reflexivity|]. exists [], w; split; [constructor|]. now left.
    - destruct (next w) as [w' [[x|]|e]] eqn:N.
      + pose proof (H [x]) as Hx; rewrite extend_cons in Hx.
        destruct (insert c x) as [[b c']|] eqn:I; cbn in Hx |- *; [clear Hx|congruence].
        assert (H' : forall l, extend c' l <> None)
          by (intros l; pose proof (H (x :: l)) as K; rewrite extend_cons, I in K; exact K).
        destruct (IH c' w' H') as (res & E & l & w1 & G & K).
        exists res; split; [exact E|]. exists (x :: l), w1; split; [econstructor; eassumption|].
        destruct K as [[HL ->]|[(HL & w2 & c2 & A & B & ->)|(HL & w2 & e & A & ->)]].
        * left; cbn; split; [now rewrite HL|reflexivity].
        * right; left; cbn; split; [lia|]. exists w2, c2; repeat split; [exact A|].
          rewrite extend_cons, I; exact B.
        * right; right; cbn; split; [lia|]. exists w2, e; auto.
      + eexists; split; [reflexivity|]. exists [], w; split; [constructor|].
        right; left; split; [cbn; lia|]. exists w', c; repeat split; [exact N|apply extend_nil].
      + eexists; split; [reflexivity|]. exists [], w; split; [constructor|].
        right; right; split; [cbn; lia|]. exists w', e; auto.
  Qed.

  Lemma reads_weak (P Q : list X -> C -> Prop) n w res : (forall l c, P l c -> Q l c) ->
    reads next P n w res -> reads next Q n w res.
  Proof.
    intros H (l & w1 & G & [K|[(L & w2 & c & A & B & K)|K]]); exists l, w1; split; auto.
    right; left; split; [exact L|]. exists w2, c; auto.
  Qed.
End De.

Section Meaning.
  Context {W X Ok Err : Type}.

  Lemma gives_one (next : W -> W * (option X + Err)) w l1 w1 l2 w2 :
    gives next w l1 w1 -> gives next w l2 w2 ->
    (forall x, snd (next w1) <> inl (Some x)) -> (forall x, snd (next w2) <> inl (Some x)) ->
    l1 = l2 /\ w1 = w2.
  Proof.
    intros G; revert l2 w2; induction G as [w|w x w' l w'' N G IH]; intros l2 w2 G2 H1 H2.
    - inversion G2 as [|? x w' l ? N]; subst; [auto|]. exfalso; apply (H1 x); now rewrite N.
    - inversion G2 as [|? x2 w2' l2' ? N2 G2']; subst.
      + exfalso; apply (H2 x); now rewrite N.
      + rewrite N in N2; injection N2 as <- <-. destruct (IH _ _ G2' H1 H2) as [-> ->]; auto.
  Qed.

  (** Two beginnings: one is longer. *)
  Lemma gives_prefix (next : W -> W * (option X + Err)) w l1 w1 l2 w2 :
    gives next w l1 w1 -> (forall x, snd (next w1) <> inl (Some x)) -> gives next w l2 w2 ->
    length l2 <= length l1.
  Proof.
    intros G; revert l2 w2; induction G as [w|w x w' l w'' N G IH]; intros l2 w2 H G2.
    - inversion G2 as [|? x w' l ? N]; subst; [auto|]. exfalso; apply (H x); now rewrite N.
    - inversion G2 as [|? x2 w2' l2' ? N2 G2']; subst; cbn; [lia|].
      rewrite N in N2; injection N2 as <- <-. specialize (IH _ _ H G2'); lia.
  Qed.

  Lemma reads_ends C (next : W -> W * (option X + Err)) (built : list X -> C -> Prop) w l w1 :
    gives next w l w1 -> (forall x, snd (next w1) <> inl (Some x)) ->
    forall n res, length l < n -> reads next built n w res ->
      (exists e, next w1 = (fst (next w1), inr e) /\ res = Some (fst (next w1), inr e)) \/
      (exists c, next w1 = (fst (next w1), inl None) /\ built l c /\
                 res = Some (fst (next w1), inl c)).
  Proof.
    intros G H n res Hn (l2 & w2 & G2 & [[A B]|[(A & w3 & c & B & D & ->)|(A & w3 & e & B & ->)]]).
    - pose proof (gives_prefix _ _ _ _ _ _ G H G2); lia.
    - assert (H2 : forall x, snd (next w2) <> inl (Some x)) by (rewrite B; discriminate).
      destruct (gives_one _ _ _ _ _ _ G G2 H H2) as [-> ->].
      right; exists c; rewrite B; auto.
    - assert (H2 : forall x, snd (next w2) <> inl (Some x)) by (rewrite B; discriminate).
      destruct (gives_one _ _ _ _ _ _ G G2 H H2) as [-> ->].
      left; exists e; rewrite B; auto.
  Qed.

  Lemma reads_endless C (next : W -> W * (option X + Err)) (built : list X -> C -> Prop) w :
    (forall l w1, gives next w l w1 -> exists x, snd (next w1) = inl (Some x)) ->
    forall n res, reads next built n w res -> res = None.
  Proof.
    intros H n res (l2 & w2 & G2 & [[A B]|[(A & w3 & c & B & D & ->)|(A & w3 & e & B & ->)]]);
      [exact B| |]; destruct (H _ _ G2) as [x K]; rewrite B in K; discriminate.
  Qed.

  Lemma talk_inv (begin : W -> option nat -> W * (unit + Err))
    (elem : W -> X -> W * (unit + Err)) (fin : W -> W * (Ok + Err)) w c a h w' :
    talk begin elem fin w ((c, a) :: h) w' ->
    exists w0, says begin elem fin w c a w0 /\ talk begin elem fin w0 h w'.
  Proof. intros T; inversion T; subst; eauto. Qed.

  Lemma talk_elems (begin : W -> option nat -> W * (unit + Err))
    (elem : W -> X -> W * (unit + Err)) (fin : W -> W * (Ok + Err)) w' o l : forall h h' w,
    talk begin elem fin w h w' -> map fst h = map CElem l ++ [CEnd] ->
    (forall c a, In (c, a) h -> ~ refused a) -> h = h' ++ [(CEnd, Result o)] ->
    exists w1, accepts elem w l w1 /\ fin w1 = (w', inl o).
  Proof.
    induction l as [|x l IH]; intros h h' w T M N F.
    - destruct h as [|[c a] [|]]; try discriminate.
      destruct h' as [|? []]; try discriminate. injection F as -> ->.
      inversion T as [|? ? ? w0 ? ? Y T']; subst. inversion T'; subst.
      exists w; split; [constructor|]. now inversion Y.
    - destruct h as [|[c a] h]; [discriminate|]. injection M as -> M.
      destruct h' as [|p h']; [injection F as E1 E2 E3; discriminate|].
      injection F as <- F. apply talk_inv in T as (w0 & Y & T).
      destruct (IH _ _ _ T M (fun c' a' I => N c' a' (or_intror I)) F) as (w1 & A & B).
      exists w1; split; [|exact B]. econstructor; [|exact A].
      inversion Y; subst; [assumption|].
      exfalso; apply (N _ _ (or_introl eq_refl)); now exists e.
  Qed.

  Lemma given_ok (begin : W -> option nat -> W * (unit + Err))
    (elem : W -> X -> W * (unit + Err)) (fin : W -> W * (Ok + Err)) l w w' o :
    given begin elem fin l w w' (inl o) ->
    exists w0 w1, begin w (Some (length l)) = (w0, inl tt) /\ accepts elem w0 l w1 /\
      fin w1 = (w', inl o).
  Proof.
    intros (h & T & [(o' & E & M & N & h' & F)|(e & h' & c & rest & E & _)]); [|discriminate].
    injection E as <-. destruct h as [|[c a] h]; [discriminate|]. injection M as -> M.
    destruct h' as [|p h']; [discriminate|]. injection F as <- F.
    apply talk_inv in T as (w0 & Y & T).
    destruct (talk_elems _ _ _ _ _ _ _ _ _ T M (fun c' a' I => N c' a' (or_intror I)) F) as (w1 & A & B).
    exists w0, w1; split; [|auto]. inversion Y; subst; [assumption|].
    exfalso; apply (N _ _ (or_introl eq_refl)); now exists e.
  Qed.
End Meaning.

Section Containers.
  Context {R : Type} {cmp : R -> R -> comparison} (L : ord_laws cmp) (keep : bool).

  Lemma same_eq : forall x y, same cmp x y = true <-> x = y.
  Proof. intros x y; apply (same_true L). Qed.

  Lemma bd_into (W Ok Err : Type) begin elem fin ops xs d (w : W) :
    run (bd_step cmp keep) bd_new ops = Some (xs, d) ->
    exists l w' r, bd_iter d = Some l /\ bd_ser_into begin elem fin d w = Some (w', r) /\
      given (Ok:=Ok) (Err:=Err) begin elem fin l w w' r.
  Proof.
    intros H; destruct (bd_rebuild L keep (same cmp) ops xs d same_eq H) as (l & _ & A & B & _).
    destruct (into_spec begin elem fin (length l) l w eq_refl) as (w' & r & C & D).
    exists l, w', r; split; [exact A|]. unfold bd_ser_into; rewrite B; auto.
  Qed.

  Lemma bd_from (W Err : Type) (next : W -> W * (option (quad R) + Err)) n w :
    exists res, bd_de_from cmp keep next n w = Some res /\
      reads next (fun l d => exists m, bd_iter d = Some m /\ increasing (quad_cmp cmp) m /\
      forall t, In t m <-> In t l) n w res.
  Proof.
    assert (HT : forall ts, bd_extend cmp keep bd_new ts <> None).
    { intros ts; destruct (bd_collect L keep ts) as (d & E & _); unfold bd_from_iter in E; congruence. }
    destruct (from_spec next (bd_insert cmp keep) (bd_extend cmp keep) (fun _ => eq_refl)
                (fun _ _ _ => eq_refl) n bd_new w HT) as (res & A & B).
    exists res; split; [exact A|]. revert B; apply reads_weak; intros l c E.
    destruct (bd_collect L keep l) as (d & F & m & G & H & K).
    unfold bd_from_iter in F; rewrite E in F; injection F as <-. eauto.
  Qed.

  Lemma id_into (W Ok Err : Type) begin elem fin ops0 ops xs d (w : W) :
    id_reached cmp keep ops0 ops xs d ->
    exists l w' r, id_iter d = Some l /\ id_ser_into begin elem fin d w = Some (w', r) /\
      given (Ok:=Ok) (Err:=Err) begin elem fin l w w' r.
  Proof.
    intros H; destruct (id_rebuild L keep (same cmp) ops0 ops xs d same_eq H) as (l & _ & A & B & _).
    destruct (into_spec begin elem fin (length l) l w eq_refl) as (w' & r & C & D).
    exists l, w', r; split; [exact A|]. unfold id_ser_into; rewrite B; auto.
  Qed.

  Lemma id_from (W Err : Type) (next : W -> W * (option (quad R) + Err)) n w :
    exists res, id_de_from cmp keep next n w = Some res /\
      reads next (fun l d => exists m, id_iter d = Some m /\ increasing (quad_cmp cmp) m /\
      forall t, In t m <-> In t l) n w res.
  Proof.
    assert (HT : forall ts, id_extend cmp keep id_new ts <> None).
    { intros ts; destruct (id_collect L keep ts) as (d & E & _); unfold id_from_iter in E; congruence. }
    destruct (from_spec next (id_insert cmp keep) (id_extend cmp keep) (fun _ => eq_refl)
                (fun _ _ _ => eq_refl) n id_new w HT) as (res & A & B).
    exists res; split; [exact A|]. revert B; apply reads_weak; intros l c E.
    destruct (id_collect L keep l) as (d & F & m & G & H & K).
    unfold id_from_iter in F; rewrite E in F; injection F as <-. eauto.
  Qed.

  Lemma bg_into (W Ok Err : Type) begin elem fin ops xs g (w : W) :
    run (bg_step cmp keep) bg_new ops = Some (xs, g) ->
    exists l w' r, bg_iter g = Some l /\ bg_ser_into begin elem fin g w = Some (w', r) /\
      given (Ok:=Ok) (Err:=Err) begin elem fin l w w' r.
  Proof.
    intros H; destruct (bg_rebuild L keep (same cmp) ops xs g same_eq H) as (l & _ & A & B & _).
    destruct (into_spec begin elem fin (length l) l w eq_refl) as (w' & r & C & D).
    exists l, w', r; split; [exact A|]. unfold bg_ser_into; rewrite B; auto.
  Qed.

  Lemma bg_from (W Err : Type) (next : W -> W * (option (triple R) + Err)) n w :
    exists res, bg_de_from cmp keep next n w = Some res /\
      reads next (fun l g => exists m, bg_iter g = Some m /\ increasing (triple_cmp cmp) m /\
      forall t, In t m <-> In t l) n w res.
  Proof.
    assert (HT : forall ts, bg_extend cmp keep bg_new ts <> None).
    { intros ts; destruct (bg_collect L keep ts) as (d & E & _); unfold bg_from_iter in E; congruence. }
    destruct (from_spec next (bg_insert cmp keep) (bg_extend cmp keep) (fun _ => eq_refl)
                (fun _ _ _ => eq_refl) n bg_new w HT) as (res & A & B).
    exists res; split; [exact A|]. revert B; apply reads_weak; intros l c E.
    destruct (bg_collect L keep l) as (d & F & m & G & H & K).
    unfold bg_from_iter in F; rewrite E in F; injection F as <-. eauto.
  Qed.

  Lemma ig_into (W Ok Err : Type) begin elem fin ops0 ops g (w : W) :
    ig_reached cmp keep ops0 ops g ->
    exists l w' r, ig_iter g = Some l /\ ig_ser_into begin elem fin g w = Some (w', r) /\
      given (Ok:=Ok) (Err:=Err) begin elem fin l w w' r.
  Proof.
    intros H; destruct (ig_rebuild L keep (same cmp) ops0 ops g same_eq H) as (l & _ & A & B & _).
    destruct (into_spec begin elem fin (length l) l w eq_refl) as (w' & r & C & D).
    exists l, w', r; split; [exact A|]. unfold ig_ser_into; rewrite B; auto.
  Qed.

  Lemma ig_from (W Err : Type) (next : W -> W * (option (triple R) + Err)) n w :
    exists res, ig_de_from cmp keep next n w = Some res /\
      reads next (fun l g => exists m, ig_iter g = Some m /\ increasing (triple_cmp cmp) m /\
      forall t, In t m <-> In t l) n w res.
  Proof.
    assert (HT : forall ts, ig_extend cmp keep ig_new ts <> None).
    { intros ts; destruct (ig_collect L keep ts) as (d & E & _); unfold ig_from_iter in E; congruence. }
    destruct (from_spec next (ig_insert cmp keep) (ig_extend cmp keep) (fun _ => eq_refl)
                (fun _ _ _ => eq_refl) n ig_new w HT) as (res & A & B).
    exists res; split; [exact A|]. revert B; apply reads_weak; intros l c E.
    destruct (ig_collect L keep l) as (d & F & m & G & H & K).
    unfold ig_from_iter in F; rewrite E in F; injection F as <-. eauto.
  Qed.

End Containers.
