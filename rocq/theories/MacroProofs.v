(** The macros read exactly the notation of MacroSpec.v. *)
From Coq Require Import List NArith Bool Lia Arith Ascii String.
Import ListNotations.
From Verif Require Import Base TextModel BlankIdModel BlankIdSpec BlankIdProofs DisplayModel TermModel
  TripleModel TriplePatternModel MacroModel MacroSpec.

Definition item_expr (i : item) : expr :=
  match i with
  | IVar x => EIdent x
  | IIri i => EIri i
  | IBlank s => EBlank s
  | ITyped v ty => ETyped v ty
  | IPlain v => EPlain v
  | ICharTyped c ty => ETyped [c] ty
  | IChar c => EPlain [c]
  end.

Lemma from_written l : forall acc, from acc (written_all l) = Some (acc ++ map item_expr l).
Proof.
  induction l as [|i r IH]; intros acc; [cbn; now rewrite app_nil_r|].
  unfold written_all in *; cbn [flat_map map].
  replace (acc ++ item_expr i :: map item_expr r) with ((acc ++ [item_expr i]) ++ map item_expr r)
    by (rewrite <- app_assoc; reflexivity).
  rewrite <- IH; destruct i; try reflexivity;
    (cbn [written app]; destruct r as [|j r]; [reflexivity|]; destruct j; reflexivity).
Qed.

Lemma from_inv n : forall ts acc es, List.length ts <= n -> from acc ts = Some es ->
  exists l, ts = written_all l /\ es = acc ++ map item_expr l.
Proof.
  assert (K : forall i r acc es,
    (exists l, r = written_all l /\ es = (acc ++ [item_expr i]) ++ map item_expr l) ->
    exists l, written i ++ r = written_all l /\ es = acc ++ map item_expr l).
  { intros i r acc es (l & -> & ->); exists (i :: l); split; [reflexivity|].
    cbn; now rewrite <- app_assoc. }
  induction n as [|n IH]; intros ts acc es Hn H.
  - destruct ts; [|cbn in Hn; lia]; cbn in H; injection H as <-.
    exists []; cbn; now rewrite app_nil_r.
  - destruct ts as [|t r]; [cbn in H; injection H as <-; exists []; cbn; now rewrite app_nil_r|].
    destruct t; try discriminate; cbn in Hn.
    + apply (K (IVar x) r), IH; [lia|exact H].
    + destruct r as [|[] [|[] r]]; try discriminate; cbn in Hn.
      apply (K (IIri s) r), IH; [lia|exact H].
    + destruct r as [|[] [|[] r]]; try discriminate; cbn in Hn.
      apply (K (IBlank s) r), IH; [lia|exact H].
    + destruct r as [|[] [|[] [|[] q]]]; cbn in Hn;
        try (apply (K (IPlain s)), IH; [cbn; lia|exact H]).
      apply (K (ITyped s s0) q), IH; [lia|exact H].
    + destruct r as [|[] [|[] [|[] q]]]; cbn in Hn;
        try (apply (K (IChar c)), IH; [cbn; lia|exact H]).
      apply (K (ICharTyped c s) q), IH; [lia|exact H].
Qed.

Lemma from_exact ts es :
  from [] ts = Some es <-> exists l, ts = written_all l /\ es = map item_expr l.
Proof.
  split; [intros H; exact (from_inv (List.length ts) ts [] es (le_n _) H)|].
  intros (l & -> & ->); now rewrite from_written.
Qed.

Section Macros.
  Context (env : N -> option rust_value) (iri_ok : text -> bool).
  Local Notation compiles := (compiles env iri_ok).
  Local Notation eval := (eval env).
  Local Notation means := (means env iri_ok).
  Local Notation almost := (almost env iri_ok).

  Lemma holds_spec v t : local_from v = Some t <-> holds v t.
  Proof.
    split.
    - destruct v; cbn; intros H; inversion H; constructor.
    - intros []; reflexivity.
  Qed.

  Lemma blank_suffix_ok s b :
    blank_from_suffix s = Some b <->
    b = chars "_:" ++ s /\ BLANK_NODE_LABEL (chars "_:" ++ s) /\ ~ In DOT s.
  Proof.
    unfold blank_from_suffix; split.
    - intros H; pose proof (new_keeps _ _ H) as ->.
      apply new_exact in H; destruct H as [H K]; split; [reflexivity|]; split; [exact H|].
      intros D; apply K, in_or_app; now right.
    - intros (-> & H & K); apply new_exact; split; [exact H|].
      intros D; apply in_app_or in D; destruct D as [D|D]; [|contradiction].
      cbn in D; destruct D as [D|[D|[]]]; discriminate.
  Qed.

  Lemma means_spec i t :
    means i t <-> compiles (item_expr i) = true /\ eval (item_expr i) = Some t.
  Proof.
    split.
    - intros [x v u E H|j H|s H K|v ty H|v|c ty H|c]; cbn; auto.
      + apply holds_spec in H; now rewrite E, H.
      + split; [reflexivity|]; rewrite (proj2 (blank_suffix_ok s (chars "_:" ++ s)%list)); [reflexivity|auto].
    - destruct i as [x|j|s|v ty|v|c ty|c]; cbn.
      + destruct (env x) as [v|] eqn:E; [|intros []; discriminate].
        intros [_ H]; econstructor; [exact E|now apply holds_spec].
      + intros [H K]; injection K as <-; now constructor.
      + intros [_ H]; destruct (blank_from_suffix s) as [b|] eqn:E; [|discriminate].
        apply blank_suffix_ok in E as (-> & A & B); injection H as <-; now constructor.
      + intros [H K]; injection K as <-; now constructor.
      + intros [_ K]; injection K as <-; constructor.
      + intros [H K]; injection K as <-; now constructor.
      + intros [_ K]; injection K as <-; constructor.
  Qed.

  Lemma almost_spec i : almost i <-> compiles (item_expr i) = true.
  Proof.
    split.
    - intros [[t H]|[s ->]]; [now apply means_spec in H|reflexivity].
    - intros H; destruct (eval (item_expr i)) as [t|] eqn:E.
      + left; exists t; apply means_spec; auto.
      + destruct i as [x|j|s|v ty|v|c ty|c]; try discriminate; [|right; eauto].
        cbn in *; destruct (env x) as [v|]; [|discriminate].
        rewrite E in H; discriminate.
  Qed.

  Lemma means_fun i t u : means i t -> means i u -> t = u.
  Proof. rewrite !means_spec; intros [_ A] [_ B]; congruence. Qed.

  Lemma not_means i : compiles (item_expr i) = true -> eval (item_expr i) = None ->
    forall t, ~ means i t.
  Proof. intros _ H t K; apply means_spec in K; destruct K; congruence. Qed.

  Lemma map_three l (a b c : expr) : map item_expr l = [a; b; c] ->
    exists x y z, l = [x; y; z] /\ a = item_expr x /\ b = item_expr y /\ c = item_expr z.
  Proof.
    destruct l as [|x [|y [|z [|]]]]; try discriminate; cbn; intros H; injection H as <- <- <-.
    exists x, y, z; auto.
  Qed.

  Lemma triple_code_value ts t :
    triple_code env iri_ok ts = Some (Some t) <->
    exists l, ts = written_all l /\ triple_means env iri_ok l t.
  Proof.
    unfold triple_code; split.
    - destruct (from [] ts) as [es|] eqn:E; [|discriminate].
      apply from_exact in E as (l & -> & ->); intros H; exists l; split; [reflexivity|].
      destruct l as [|a [|b [|c [|]]]]; try discriminate; cbn [map triple_expr] in H.
      destruct (compiles (item_expr a)) eqn:Ca, (compiles (item_expr b)) eqn:Cb,
        (compiles (item_expr c)) eqn:Cc; try discriminate; cbn [andb] in H.
      destruct (eval (item_expr a)) eqn:A, (eval (item_expr b)) eqn:B, (eval (item_expr c)) eqn:C;
        try discriminate; injection H as <-.
      constructor; now apply means_spec.
    - intros (l & -> & H); rewrite (proj2 (from_exact _ (map item_expr l))) by eauto.
      destruct H as [a b c s p o A B C]; apply means_spec in A as [A1 A2], B as [B1 B2], C as [C1 C2].
      cbn [map triple_expr]; now rewrite A1, B1, C1, A2, B2, C2.
  Qed.

  Lemma triple_code_panics ts :
    triple_code env iri_ok ts = Some None <->
    exists l, ts = written_all l /\ List.length l = 3 /\ Forall almost l /\
      ~ exists t, triple_means env iri_ok l t.
  Proof.
    unfold triple_code; split.
    - destruct (from [] ts) as [es|] eqn:E; [|discriminate].
      apply from_exact in E as (l & -> & ->); intros H; exists l; split; [reflexivity|].
      destruct l as [|a [|b [|c [|]]]]; try discriminate; cbn [map triple_expr] in H.
      destruct (compiles (item_expr a)) eqn:Ca, (compiles (item_expr b)) eqn:Cb,
        (compiles (item_expr c)) eqn:Cc; try discriminate; cbn [andb] in H.
      split; [reflexivity|]; split; [repeat (apply Forall_cons; [now apply almost_spec|]); apply Forall_nil|].
      intros [t K]; inversion K as [x y z s p o A B C]; subst.
      apply means_spec in A as [_ A], B as [_ B], C as [_ C]; now rewrite A, B, C in H.
    - intros (l & -> & L & F & N); rewrite (proj2 (from_exact _ (map item_expr l))) by eauto.
      destruct l as [|a [|b [|c [|]]]]; try discriminate.
      inversion F as [|? ? Fa F1]; inversion F1 as [|? ? Fb F2]; inversion F2 as [|? ? Fc _]; subst.
      apply almost_spec in Fa, Fb, Fc; cbn [map triple_expr]; rewrite Fa, Fb, Fc; cbn [andb].
      destruct (eval (item_expr a)) eqn:A, (eval (item_expr b)) eqn:B, (eval (item_expr c)) eqn:C;
        try reflexivity.
      destruct N; eexists; constructor; apply means_spec; eauto.
  Qed.

  Lemma quad_code_value ts q :
    quad_code env iri_ok ts = Some (Some q) <->
    exists l, ts = written_all l /\ quad_means env iri_ok l q.
  Proof.
    unfold quad_code; split.
    - destruct (from [] ts) as [es|] eqn:E; [|discriminate].
      apply from_exact in E as (l & -> & ->); intros H; exists l; split; [reflexivity|].
      destruct l as [|a [|b [|c [|d [|]]]]]; try discriminate; cbn [map quad_expr] in H.
      + destruct (compiles (item_expr a)) eqn:Ca, (compiles (item_expr b)) eqn:Cb,
          (compiles (item_expr c)) eqn:Cc; try discriminate; cbn [andb] in H.
        destruct (eval (item_expr a)) eqn:A, (eval (item_expr b)) eqn:B, (eval (item_expr c)) eqn:C;
          try discriminate; injection H as <-.
        constructor; now apply means_spec.
      + destruct (compiles (item_expr a)) eqn:Ca, (compiles (item_expr b)) eqn:Cb,
          (compiles (item_expr c)) eqn:Cc, (compiles (item_expr d)) eqn:Cd;
          try discriminate; cbn [andb] in H.
        destruct (eval (item_expr a)) eqn:A, (eval (item_expr b)) eqn:B, (eval (item_expr c)) eqn:C,
          (eval (item_expr d)) eqn:D; try discriminate; injection H as <-.
        constructor; now apply means_spec.
    - intros (l & -> & H); rewrite (proj2 (from_exact _ (map item_expr l))) by eauto.
      destruct H as [a b c s p o A B C|a b c d s p o g A B C D].
      + apply means_spec in A as [A1 A2], B as [B1 B2], C as [C1 C2].
        cbn [map quad_expr]; now rewrite A1, B1, C1, A2, B2, C2.
      + apply means_spec in A as [A1 A2], B as [B1 B2], C as [C1 C2], D as [D1 D2].
        cbn [map quad_expr]; now rewrite A1, B1, C1, D1, A2, B2, C2, D2.
  Qed.

  Lemma quad_code_panics ts :
    quad_code env iri_ok ts = Some None <->
    exists l, ts = written_all l /\ (List.length l = 3 \/ List.length l = 4) /\ Forall almost l /\
      ~ exists q, quad_means env iri_ok l q.
  Proof.
    unfold quad_code; split.
    - destruct (from [] ts) as [es|] eqn:E; [|discriminate].
      apply from_exact in E as (l & -> & ->); intros H; exists l; split; [reflexivity|].
      destruct l as [|a [|b [|c [|d [|]]]]]; try discriminate; cbn [map quad_expr] in H.
      + destruct (compiles (item_expr a)) eqn:Ca, (compiles (item_expr b)) eqn:Cb,
          (compiles (item_expr c)) eqn:Cc; try discriminate; cbn [andb] in H.
        split; [now left|]; split; [repeat (apply Forall_cons; [now apply almost_spec|]); apply Forall_nil|].
        intros [t K]; inversion K as [x y z s p o A B C|]; subst.
        apply means_spec in A as [_ A], B as [_ B], C as [_ C]; now rewrite A, B, C in H.
      + destruct (compiles (item_expr a)) eqn:Ca, (compiles (item_expr b)) eqn:Cb,
          (compiles (item_expr c)) eqn:Cc, (compiles (item_expr d)) eqn:Cd;
          try discriminate; cbn [andb] in H.
        split; [now right|]; split; [repeat (apply Forall_cons; [now apply almost_spec|]); apply Forall_nil|].
        intros [t K]; inversion K as [|x y z w s p o g A B C D]; subst.
        apply means_spec in A as [_ A], B as [_ B], C as [_ C], D as [_ D].
        now rewrite A, B, C, D in H.
    - intros (l & -> & L & F & N); rewrite (proj2 (from_exact _ (map item_expr l))) by eauto.
      destruct l as [|a [|b [|c [|d [|]]]]]; try (destruct L; discriminate).
      + inversion F as [|? ? Fa F1]; inversion F1 as [|? ? Fb F2]; inversion F2 as [|? ? Fc _]; subst.
        apply almost_spec in Fa, Fb, Fc; cbn [map quad_expr]; rewrite Fa, Fb, Fc; cbn [andb].
        destruct (eval (item_expr a)) eqn:A, (eval (item_expr b)) eqn:B, (eval (item_expr c)) eqn:C;
          try reflexivity.
        destruct N; eexists; constructor; apply means_spec; eauto.
      + inversion F as [|? ? Fa F1]; inversion F1 as [|? ? Fb F2]; inversion F2 as [|? ? Fc F3];
          inversion F3 as [|? ? Fd _]; subst.
        apply almost_spec in Fa, Fb, Fc, Fd; cbn [map quad_expr]; rewrite Fa, Fb, Fc, Fd; cbn [andb].
        destruct (eval (item_expr a)) eqn:A, (eval (item_expr b)) eqn:B, (eval (item_expr c)) eqn:C,
          (eval (item_expr d)) eqn:D; try reflexivity.
        destruct N; eexists; constructor; apply means_spec; eauto.
  Qed.

  (** ** Statements *)

  Definition plain_token (t : token) : Prop :=
    match t with KDot | KQuestion | KOther => False | _ => True end.

  Lemma written_plain l : Forall plain_token (written_all l).
  Proof.
    induction l as [|i r IH]; [constructor|]; unfold written_all; cbn [flat_map].
    apply Forall_app; split; [destruct i; repeat constructor|exact IH].
  Qed.

  Lemma tokenize_block b : forall acc cur r, Forall plain_token b ->
    tokenize acc cur (b ++ KDot :: r) = tokenize (acc ++ [cur ++ b]) [] r.
  Proof.
    induction b as [|t b IH]; intros acc cur r H.
    - cbn; now rewrite app_nil_r.
    - inversion H as [|? ? Ht Hb]; subst; cbn [app].
      transitivity (tokenize acc (cur ++ [t]) (b ++ KDot :: r)); [destruct t; easy|].
      rewrite IH by exact Hb; now rewrite <- app_assoc.
  Qed.

  Lemma tokenize_blocks bs : forall acc, Forall (Forall plain_token) bs ->
    tokenize acc [] (flat_map (fun b => b ++ [KDot]) bs) = Some (acc ++ bs).
  Proof.
    induction bs as [|b bs IH]; intros acc H; [cbn; now rewrite app_nil_r|].
    inversion H as [|? ? Hb Hbs]; subst; cbn [flat_map]; rewrite <- app_assoc; cbn [app].
    rewrite tokenize_block, IH by assumption; cbn; now rewrite <- app_assoc.
  Qed.

  Lemma tokenize_inv ts : forall acc cur ll, tokenize acc cur ts = Some ll ->
    exists bs, ll = acc ++ bs /\ cur ++ ts = flat_map (fun b => b ++ [KDot]) bs.
  Proof.
    induction ts as [|t r IH]; intros acc cur ll H.
    - cbn in H; destruct cur; [|discriminate]; injection H as <-; exists []; now rewrite app_nil_r.
    - assert (K : tokenize acc (cur ++ [t]) r = Some ll ->
        exists bs, ll = acc ++ bs /\ cur ++ t :: r = flat_map (fun b => b ++ [KDot]) bs).
      { intros G; destruct (IH _ _ _ G) as (bs & A & B); exists bs; split; [exact A|].
        now rewrite <- app_assoc in B. }
      destruct t; try (apply K, H); try discriminate.
      cbn in H; destruct (IH _ _ _ H) as (bs & -> & B); exists (cur :: bs); split;
        [now rewrite <- app_assoc|].
      cbn [flat_map]; rewrite <- B, <- app_assoc; reflexivity.
  Qed.

  Lemma array_value {A} (code : list token -> option (option A)) bs : forall k,
    array_code code bs = Some (Some k) <-> Forall2 (fun b a => code b = Some (Some a)) bs k.
  Proof.
    induction bs as [|b bs IH]; intros k; cbn [array_code].
    - split; [intros H; injection H as <-; constructor|intros H; inversion H; reflexivity].
    - split.
      + destruct (code b) as [[a|]|] eqn:E; try discriminate;
          destruct (array_code code bs) as [[l|]|]; try discriminate.
        intros H; injection H as <-; constructor; [exact E|now apply IH].
      + intros H; inversion H as [|? a ? l E F]; subst; apply IH in F; now rewrite E, F.
  Qed.

  Lemma all_values {A} (code : list token -> option (option A)) bs k :
    Forall2 (fun b a => code b = Some (Some a)) bs k ->
    Forall (fun b => code b <> None) bs /\ ~ Exists (fun b => code b = Some None) bs.
  Proof.
    induction 1 as [|b a bs k E F [I J]]; [split; [constructor|intros H; inversion H]|].
    split; [constructor; [congruence|exact I]|].
    intros H; inversion H; subst; [congruence|auto].
  Qed.

  Lemma array_panics {A} (code : list token -> option (option A)) bs :
    array_code code bs = Some None <->
    Forall (fun b => code b <> None) bs /\ Exists (fun b => code b = Some None) bs.
  Proof.
    induction bs as [|b bs IH]; cbn [array_code].
    - split; [discriminate|intros [_ H]; inversion H].
    - assert (V : forall k, array_code code bs = Some (Some k) -> Forall (fun b => code b <> None) bs /\
        ~ Exists (fun b => code b = Some None) bs).
      { intros k H; apply array_value in H; now apply (all_values _ _ k). }
      assert (N : array_code code bs = None -> ~ Forall (fun b => code b <> None) bs).
      { intros H F; clear IH V; induction bs as [|c bs IH]; [discriminate|].
        inversion F as [|? ? C F']; subst; cbn [array_code] in H.
        destruct (code c) as [[a|]|]; [| |congruence];
          destruct (array_code code bs) as [[l|]|]; try discriminate; auto. }
      destruct (code b) as [[a|]|] eqn:E.
      + destruct (array_code code bs) as [[k|]|] eqn:F.
        * split; [discriminate|]; intros [_ H]; exfalso.
          inversion H; subst; [congruence|]; now apply (proj2 (V _ eq_refl)).
        * split; [intros _|reflexivity]; destruct (proj1 IH eq_refl) as [I J].
          split; [constructor; [congruence|exact I]|now right].
        * split; [discriminate|]; intros [H _]; inversion H; subst; now apply N in H3.
      + destruct (array_code code bs) as [[k|]|] eqn:F.
        * split; [intros _|reflexivity]; split; [|now left].
          constructor; [congruence|apply (V _ eq_refl)].
        * split; [intros _|reflexivity]; destruct (proj1 IH eq_refl) as [I J].
          split; [constructor; [congruence|exact I]|now left].
        * split; [discriminate|]; intros [H _]; inversion H; subst; now apply N in H3.
      + split; [discriminate|]; intros [H _]; inversion H; congruence.
  Qed.

  (** ** The macros *)

  Lemma run_value {A} (c : option (option A)) a : run_code c = Value a <-> c = Some (Some a).
  Proof. destruct c as [[|]|]; cbn; split; intros H; congruence. Qed.
  Lemma run_panics {A} (c : option (option A)) : run_code c = Panics <-> c = Some None.
  Proof. destruct c as [[|]|]; cbn; split; intros H; congruence. Qed.

  (** ** Moved variables *)

  Lemma distinct_spec l : distinct l = true <-> forall x, count_occ N.eq_dec l x <= 1.
  Proof.
    induction l as [|y l IH]; [split; [intros _ x; cbn; lia|reflexivity]|].
    cbn [distinct]; rewrite andb_true_iff, negb_true_iff, IH; split.
    - intros [A B] x; cbn [count_occ]; destruct (N.eq_dec y x) as [->|]; [|apply B].
      assert (~ In x l) as K.
      { intros K; assert (existsb (N.eqb x) l = true); [|congruence].
        apply existsb_exists; exists x; split; [exact K|apply N.eqb_refl]. }
      apply (count_occ_not_In N.eq_dec) in K; lia.
    - intros H; split.
      + destruct (existsb (N.eqb y) l) eqn:E; [|reflexivity]; exfalso.
        apply existsb_exists in E as (z & I & Z); apply N.eqb_eq in Z; subst z.
        apply (count_occ_In N.eq_dec) in I; specialize (H y); cbn [count_occ] in H.
        destruct (N.eq_dec y y); [lia|congruence].
      + intros x; specialize (H x); cbn [count_occ] in H; destruct (N.eq_dec y x); lia.
  Qed.

  Lemma count_filter (f : N -> bool) l x :
    count_occ N.eq_dec (filter f l) x = if f x then count_occ N.eq_dec l x else 0.
  Proof.
    induction l as [|y l IH]; [now destruct (f x)|]; cbn [filter count_occ].
    destruct (N.eq_dec y x) as [->|N].
    - destruct (f x) eqn:E; [|exact IH]; cbn [count_occ].
      destruct (N.eq_dec x x); [now rewrite IH|congruence].
    - destruct (f y); [|exact IH]; cbn [count_occ].
      destruct (N.eq_dec y x); [congruence|exact IH].
  Qed.

  Lemma moved_spec ts : distinct (moved env ts) = true <-> moved_once env (idents ts).
  Proof.
    rewrite distinct_spec; unfold moved, moved_once; split.
    - intros H x v E C; specialize (H x); rewrite count_filter, E in H.
      destruct v; cbn in *; try exact H; now destruct C.
    - intros H x; rewrite count_filter; destruct (env x) as [v|] eqn:E; [|lia].
      destruct (negb (is_copy v)) eqn:C; [|lia]; apply (H x v E); destruct v; cbn in *; easy.
  Qed.

  Lemma idents_app a b : idents (a ++ b) = idents a ++ idents b.
  Proof. apply flat_map_app. Qed.

  Lemma idents_written l : idents (written_all l) = flat_map names l.
  Proof.
    induction l as [|i l IH]; [reflexivity|]; unfold written_all; cbn [flat_map].
    rewrite idents_app; fold (written_all l); rewrite IH; destruct i; reflexivity.
  Qed.

  Lemma idents_statements l : idents (written_statements l) = flat_map (flat_map names) l.
  Proof.
    induction l as [|i l IH]; [reflexivity|]; unfold written_statements; cbn [flat_map].
    rewrite !idents_app; fold (written_statements l); rewrite IH, idents_written; cbn.
    now rewrite app_nil_r.
  Qed.

  Lemma checked_iff {A} (I : list item -> list token) (ns : list item -> list N)
      (P : list item -> Prop) ts (o r : outcome A) :
    (forall l, idents (I l) = ns l) -> r <> NoCompile ->
    (o = r <-> exists l, ts = I l /\ P l) ->
    (checked env ts o = r <-> exists l, ts = I l /\ P l /\ moved_once env (ns l)).
  Proof.
    intros HI NC H; unfold checked; split.
    - destruct (distinct (moved env ts)) eqn:D; [|congruence]; intros E.
      apply H in E as (l & -> & HP); exists l; split; [reflexivity|split; [exact HP|]].
      rewrite <- HI; now apply moved_spec.
    - intros (l & E & HP & M); rewrite (proj2 (moved_spec ts)); [apply H; eauto|].
      subst ts; now rewrite HI.
  Qed.

  Lemma triple_value ts t :
    grdf_triple env iri_ok ts = Value t <->
    exists l, ts = written_all l /\ triple_means env iri_ok l t /\ moved_once env (flat_map names l).
  Proof.
    unfold grdf_triple; apply (checked_iff written_all); [exact idents_written|discriminate|].
    rewrite run_value; apply triple_code_value.
  Qed.
  Lemma triple_panics ts :
    grdf_triple env iri_ok ts = Panics <->
    exists l, ts = written_all l /\
      (List.length l = 3 /\ Forall almost l /\ ~ exists t, triple_means env iri_ok l t) /\
      moved_once env (flat_map names l).
  Proof.
    unfold grdf_triple; apply (checked_iff written_all); [exact idents_written|discriminate|].
    rewrite run_panics; apply triple_code_panics.
  Qed.
  Lemma quad_value ts q :
    grdf_quad env iri_ok ts = Value q <->
    exists l, ts = written_all l /\ quad_means env iri_ok l q /\ moved_once env (flat_map names l).
  Proof.
    unfold grdf_quad; apply (checked_iff written_all); [exact idents_written|discriminate|].
    rewrite run_value; apply quad_code_value.
  Qed.
  Lemma quad_panics ts :
    grdf_quad env iri_ok ts = Panics <->
    exists l, ts = written_all l /\
      ((List.length l = 3 \/ List.length l = 4) /\ Forall almost l /\
       ~ exists q, quad_means env iri_ok l q) /\
      moved_once env (flat_map names l).
  Proof.
    unfold grdf_quad; apply (checked_iff written_all); [exact idents_written|discriminate|].
    rewrite run_panics; apply quad_code_panics.
  Qed.

  Lemma written_flat l :
    written_statements l = flat_map (fun b => b ++ [KDot]) (map written_all l).
  Proof. induction l as [|a l IH]; [reflexivity|]; cbn [map flat_map]; now rewrite <- IH. Qed.

  Lemma tokenize_written l : tokenize [] [] (written_statements l) = Some (map written_all l).
  Proof.
    rewrite written_flat, tokenize_blocks; [reflexivity|].
    apply Forall_forall; intros b H; apply in_map_iff in H as (k & <- & _); apply written_plain.
  Qed.

  (** [code] reads the statements that satisfy [P], and these only. *)
  Lemma array_written {A} (code : list token -> option (option A)) (P : list item -> A -> Prop) :
    (forall ts a, code ts = Some (Some a) <-> exists l, ts = written_all l /\ P l a) ->
    forall ts k,
    (match tokenize [] [] ts with Some l => array_code code l | None => None end) = Some (Some k) <->
    exists l, ts = written_statements l /\ Forall2 P l k.
  Proof.
    intros HC ts k; split.
    - destruct (tokenize [] [] ts) as [bs|] eqn:E; [|discriminate]; intros H.
      apply array_value in H; apply tokenize_inv in E as (bs' & -> & E); cbn in E, H; subst ts.
      induction H as [|b a bs k Hb _ (l & El & Fl)]; [exists []; split; [reflexivity|constructor]|].
      apply HC in Hb as (i & -> & Pi).
      exists (i :: l); split; [cbn [flat_map]; rewrite El; reflexivity|now constructor].
    - intros (l & -> & F); rewrite tokenize_written; apply array_value.
      induction F as [|i a l k H _ IH]; [constructor|]; cbn; constructor; [|exact IH].
      apply HC; eauto.
  Qed.

  Lemma array_written_panics {A} (code : list token -> option (option A)) (P : list item -> A -> Prop)
      (Q : list item -> Prop) :
    (forall ts a, code ts = Some (Some a) <-> exists l, ts = written_all l /\ P l a) ->
    (forall ts, code ts = Some None <-> exists l, ts = written_all l /\ Q l) ->
    forall ts,
    (match tokenize [] [] ts with Some l => array_code code l | None => None end) = Some None <->
    exists l, ts = written_statements l /\ Forall (fun i => Q i \/ exists a, P i a) l /\ Exists Q l.
  Proof.
    intros HV HP ts; split.
    - destruct (tokenize [] [] ts) as [bs|] eqn:E; [|discriminate]; intros H.
      apply array_panics in H as [H K]; apply tokenize_inv in E as (bs' & -> & E); cbn in E, H; subst ts.
      assert (G : forall bs, Forall (fun b => code b <> None) bs -> exists l,
        flat_map (fun b => b ++ [KDot]) bs = written_statements l /\
        Forall2 (fun b i => (code b = Some None -> Q i) /\ (Q i \/ exists a, P i a)) bs l).
      { clear - HV HP; intros bs H; induction H as [|b bs Hb _ (l & El & Fl)];
          [exists []; split; [reflexivity|constructor]|].
        destruct (code b) as [[a|]|] eqn:B; [| |contradiction].
        - apply HV in B as B'; destruct B' as (i & -> & Pi); exists (i :: l); split; [cbn [flat_map]; rewrite El; reflexivity|].
          constructor; [split; [congruence|eauto]|exact Fl].
        - apply HP in B as B'; destruct B' as (i & -> & Pi); exists (i :: l); split; [cbn [flat_map]; rewrite El; reflexivity|].
          constructor; [split; auto|exact Fl]. }
      destruct (G _ H) as (l & El & Fl); exists l; split; [exact El|]; clear - Fl K.
      induction Fl as [|b i bs l [Hq Hi] F IH]; [inversion K|].
      inversion K as [? ? B|? ? B]; subst.
      + split; [|left; auto]; constructor; [exact Hi|].
        clear - F; induction F as [|? ? ? ? [_ X]]; constructor; auto.
      + destruct (IH B) as [I J]; split; [constructor; auto|right; exact J].
    - intros (l & -> & F & X); rewrite tokenize_written; apply array_panics; split.
      + clear X; induction F as [|i l H _ IH]; [constructor|]; cbn; constructor; [|exact IH].
        destruct H as [H|[a H]].
        * rewrite (proj2 (HP _)) by eauto; discriminate.
        * rewrite (proj2 (HV _ a)) by eauto; discriminate.
      + clear F; induction X as [i l H|i l _ IH]; cbn; [left; apply HP; eauto|right; exact IH].
  Qed.

  Lemma statements_iff {A} (P : list (list item) -> Prop) ts (o r : outcome A) :
    r <> NoCompile ->
    (o = r <-> exists l, ts = written_statements l /\ P l) ->
    (checked env ts o = r <->
     exists l, ts = written_statements l /\ P l /\ moved_once env (flat_map (flat_map names) l)).
  Proof.
    intros NC H; unfold checked; split.
    - destruct (distinct (moved env ts)) eqn:D; [|congruence]; intros E.
      apply H in E as (l & -> & HP); exists l; split; [reflexivity|split; [exact HP|]].
      rewrite <- idents_statements; now apply moved_spec.
    - intros (l & E & HP & M); rewrite (proj2 (moved_spec ts)); [apply H; eauto|].
      subst ts; now rewrite idents_statements.
  Qed.

  Lemma triples_value ts k :
    grdf_triples env iri_ok ts = Value k <->
    exists l, ts = written_statements l /\ Forall2 (triple_means env iri_ok) l k /\
      moved_once env (flat_map (flat_map names) l).
  Proof.
    unfold grdf_triples; apply statements_iff; [discriminate|].
    rewrite run_value; apply array_written; apply triple_code_value.
  Qed.
  Lemma quads_value ts k :
    grdf_quads env iri_ok ts = Value k <->
    exists l, ts = written_statements l /\ Forall2 (quad_means env iri_ok) l k /\
      moved_once env (flat_map (flat_map names) l).
  Proof.
    unfold grdf_quads; apply statements_iff; [discriminate|].
    rewrite run_value; apply array_written; apply quad_code_value.
  Qed.

  (** Three (or four) terms, written correctly but for a label. *)
  Lemma triples_panics ts :
    grdf_triples env iri_ok ts = Panics <->
    exists l, ts = written_statements l /\
      (Forall (fun s => List.length s = 3 /\ Forall almost s) l /\
       Exists (fun s => ~ exists t, triple_means env iri_ok s t) l) /\
      moved_once env (flat_map (flat_map names) l).
  Proof.
    unfold grdf_triples; apply statements_iff; [discriminate|]; rewrite run_panics.
    rewrite (array_written_panics _ _ _ triple_code_value triple_code_panics).
    split; intros (l & -> & F & X); exists l; (split; [reflexivity|]).
    - split.
      + eapply Forall_impl; [|exact F]; cbn; intros s [(A & B & _)|[t [a b c ? ? ? A B C]]];
          [auto|split; [reflexivity|]].
        repeat (apply Forall_cons; [left; eauto|]); apply Forall_nil.
      + eapply Exists_impl; [|exact X]; cbn; intros s H; apply H.
    - assert (D : forall s, List.length s = 3 /\ Forall almost s ->
        (exists t, triple_means env iri_ok s t) \/
        ~ exists t, triple_means env iri_ok s t).
      { intros s [L A]; destruct (triple_code env iri_ok (written_all s)) as [[t|]|] eqn:E.
        - destruct s as [|a [|b [|c [|]]]]; try discriminate; left; exists t.
          unfold triple_code in E; rewrite from_written in E; cbn [app map triple_expr] in E.
          destruct (compiles (item_expr a)) eqn:Ca, (compiles (item_expr b)) eqn:Cb,
            (compiles (item_expr c)) eqn:Cc; try discriminate; cbn [andb] in E.
          destruct (eval (item_expr a)) eqn:Ea, (eval (item_expr b)) eqn:Eb,
            (eval (item_expr c)) eqn:Ec; try discriminate; injection E as <-.
          constructor; now apply means_spec.
        - right; intros [t T]; pose proof (proj2 (triple_code_value _ t) (ex_intro _ s (conj eq_refl T))).
          congruence.
        - right; intros [t T]; pose proof (proj2 (triple_code_value _ t) (ex_intro _ s (conj eq_refl T))).
          congruence. }
      split.
      + eapply Forall_impl; [|exact F]; cbn; intros s H; destruct (D s H) as [T|T]; [now right|left].
        destruct H; auto.
      + clear D; induction X as [s l H|s l _ IH]; inversion F as [|? ? G F']; subst;
          [left; destruct G; auto|right; auto].
  Qed.

  Lemma quads_panics ts :
    grdf_quads env iri_ok ts = Panics <->
    exists l, ts = written_statements l /\
      (Forall (fun s => (List.length s = 3 \/ List.length s = 4) /\ Forall almost s) l /\
       Exists (fun s => ~ exists q, quad_means env iri_ok s q) l) /\
      moved_once env (flat_map (flat_map names) l).
  Proof.
    unfold grdf_quads; apply statements_iff; [discriminate|]; rewrite run_panics.
    rewrite (array_written_panics _ _ _ quad_code_value quad_code_panics).
    split; intros (l & -> & F & X); exists l; (split; [reflexivity|]).
    - split.
      + eapply Forall_impl; [|exact F]; cbn;
          intros s [(A & B & _)|[t [a b c ? ? ? A B C|a b c d ? ? ? ? A B C D]]];
          [auto|split; [now left|]|split; [now right|]];
        repeat (apply Forall_cons; [left; eauto|]); apply Forall_nil.
      + eapply Exists_impl; [|exact X]; cbn; intros s H; apply H.
    - assert (D : forall s, (List.length s = 3 \/ List.length s = 4) /\ Forall almost s ->
        (exists t, quad_means env iri_ok s t) \/
        ~ exists t, quad_means env iri_ok s t).
      { intros s [L A]; destruct (quad_code env iri_ok (written_all s)) as [[t|]|] eqn:E.
        - left; exists t; unfold quad_code in E; rewrite from_written in E.
          destruct s as [|a [|b [|c [|d [|]]]]]; try (destruct L; discriminate);
            cbn [app map quad_expr] in E.
          + destruct (compiles (item_expr a)) eqn:Ca, (compiles (item_expr b)) eqn:Cb,
              (compiles (item_expr c)) eqn:Cc; try discriminate; cbn [andb] in E.
            destruct (eval (item_expr a)) eqn:Ea, (eval (item_expr b)) eqn:Eb,
              (eval (item_expr c)) eqn:Ec; try discriminate; injection E as <-.
            constructor; now apply means_spec.
          + destruct (compiles (item_expr a)) eqn:Ca, (compiles (item_expr b)) eqn:Cb,
              (compiles (item_expr c)) eqn:Cc, (compiles (item_expr d)) eqn:Cd;
              try discriminate; cbn [andb] in E.
            destruct (eval (item_expr a)) eqn:Ea, (eval (item_expr b)) eqn:Eb,
              (eval (item_expr c)) eqn:Ec, (eval (item_expr d)) eqn:Ed; try discriminate;
              injection E as <-.
            constructor; now apply means_spec.
        - right; intros [t T]; pose proof (proj2 (quad_code_value _ t) (ex_intro _ s (conj eq_refl T))).
          congruence.
        - right; intros [t T]; pose proof (proj2 (quad_code_value _ t) (ex_intro _ s (conj eq_refl T))).
          congruence. }
      split.
      + eapply Forall_impl; [|exact F]; cbn; intros s H; destruct (D s H) as [T|T]; [now right|left].
        destruct H; auto.
      + clear D; induction X as [s l H|s l _ IH]; inversion F as [|? ? G F']; subst;
          [left; destruct G; auto|right; auto].
  Qed.

  (** The notation is read in one way only. *)
  Lemma no_caret l r : written_all l <> KCaret :: r.
  Proof. destruct l as [|[] l]; discriminate. Qed.

  Lemma written_inj l : forall k, written_all l = written_all k -> l = k.
  Proof.
    induction l as [|a l IH]; intros [|b k] A.
    - reflexivity.
    - destruct b; discriminate.
    - destruct a; discriminate.
    - unfold written_all in A; cbn [flat_map] in A; fold (written_all l) (written_all k) in A.
      assert (X : forall i, a = i -> b = i -> a :: l = b :: k).
      { intros i -> ->; f_equal; apply IH; now apply app_inv_head in A. }
      destruct a, b; cbn in A; try discriminate; injection A; intros; subst;
        try (eapply X; reflexivity); exfalso; (eapply no_caret; eauto; fail) || (eapply no_caret; symmetry; eauto).
  Qed.

  (** ** Patterns *)

  Definition pitem_expr (i : pitem) : expr :=
    match i with PVar x => EVar x | PTerm i => item_expr i end.

  Lemma from_pattern_inv n : forall ts acc es, List.length ts <= n -> from_pattern acc ts = Some es ->
    exists l, ts = pwritten_all l /\ es = acc ++ map pitem_expr l.
  Proof.
    assert (K : forall i r acc es,
      (exists l, r = pwritten_all l /\ es = (acc ++ [pitem_expr i]) ++ map pitem_expr l) ->
      exists l, pwritten i ++ r = pwritten_all l /\ es = acc ++ map pitem_expr l).
    { intros i r acc es (l & -> & ->); exists (i :: l); split; [reflexivity|].
      cbn; now rewrite <- app_assoc. }
    induction n as [|n IH]; intros ts acc es Hn H.
    - destruct ts; [|cbn in Hn; lia]; cbn in H; injection H as <-.
      exists []; cbn; now rewrite app_nil_r.
    - destruct ts as [|t r]; [cbn in H; injection H as <-; exists []; cbn; now rewrite app_nil_r|].
      destruct t; try discriminate; cbn in Hn.
      + apply (K (PTerm (IVar x)) r), IH; [lia|exact H].
      + destruct r as [|[] [|[] r]]; try discriminate; cbn in Hn.
        apply (K (PTerm (IIri s)) r), IH; [lia|exact H].
      + destruct r as [|[] [|[] r]]; try discriminate; cbn in Hn.
        apply (K (PTerm (IBlank s)) r), IH; [lia|exact H].
      + destruct r as [|[] r]; try discriminate; cbn in Hn.
        apply (K (PVar x) r), IH; [lia|exact H].
      + destruct r as [|[] [|[] [|[] q]]]; cbn in Hn;
          try (apply (K (PTerm (IPlain s))), IH; [cbn; lia|exact H]).
        apply (K (PTerm (ITyped s s0)) q), IH; [lia|exact H].
      + destruct r as [|[] [|[] [|[] q]]]; cbn in Hn;
          try (apply (K (PTerm (IChar c))), IH; [cbn; lia|exact H]).
        apply (K (PTerm (ICharTyped c s)) q), IH; [lia|exact H].
  Qed.

  Lemma from_pattern_written l : forall acc,
    from_pattern acc (pwritten_all l) = Some (acc ++ map pitem_expr l).
  Proof.
    induction l as [|i r IH]; intros acc; [cbn; now rewrite app_nil_r|].
    unfold pwritten_all in *; cbn [flat_map map].
    replace (acc ++ pitem_expr i :: map pitem_expr r)
      with ((acc ++ [pitem_expr i]) ++ map pitem_expr r)
      by (rewrite <- app_assoc; reflexivity).
    rewrite <- IH; destruct i as [x|i]; [reflexivity|]; destruct i; try reflexivity;
      (cbn [pwritten written app]; destruct r as [|j r]; [reflexivity|];
       destruct j as [y|j]; [reflexivity|]; destruct j; reflexivity).
  Qed.

  Lemma component_spec i c :
    pattern_component env (pitem_expr i) = Some c <-> pmeans env iri_ok i c /\ no_constant i.
  Proof.
    split.
    - destruct i as [x|[x|j|s|v ty|v|c0 ty|c0]]; cbn; try discriminate.
      + destruct (env x) as [[]|] eqn:E; try discriminate; intros H; injection H as <-.
        split; [now constructor|exact I].
      + destruct (env x) as [[]|] eqn:E; try discriminate; intros H; injection H as <-.
        split; [now constructor|exact I].
    - intros [[x n E|x t E|?|?|?|?|?] N]; try contradiction; cbn; now rewrite E.
  Qed.

  Lemma idents_pwritten l : idents (pwritten_all l) = flat_map pnames l.
  Proof.
    induction l as [|i l IH]; [reflexivity|]; unfold pwritten_all; cbn [flat_map].
    rewrite idents_app; fold (pwritten_all l); rewrite IH; destruct i as [|[]]; reflexivity.
  Qed.

  Lemma pattern_value ts q :
    grdf_quad_pattern env ts = Value q <->
    exists l, ts = pwritten_all l /\ (pattern_means env iri_ok l q /\ Forall no_constant l) /\
      moved_once env (flat_map pnames l).
  Proof.
    unfold grdf_quad_pattern, checked.
    destruct (distinct (moved env ts)) eqn:DM.
    2: { split; [discriminate|]; intros (l & -> & _ & M).
         rewrite <- idents_pwritten in M; apply moved_spec in M; congruence. }
    transitivity (exists l, ts = pwritten_all l /\ pattern_means env iri_ok l q /\ Forall no_constant l).
    2: { split; intros (l & E & H); exists l; (split; [exact E|]).
         - split; [exact H|]; rewrite <- idents_pwritten, <- E; now apply moved_spec.
         - apply H. }
    split.
    - destruct (from_pattern [] ts) as [es|] eqn:E; [|discriminate].
      apply (from_pattern_inv (List.length ts)) in E; [|lia].
      destruct E as (l & -> & ->); cbn [app]; intros H; exists l; split; [reflexivity|].
      destruct l as [|a [|b [|c [|d [|]]]]]; try discriminate; cbn [map] in H.
      + destruct (pattern_component env (pitem_expr a)) eqn:A; [|discriminate].
        destruct (pattern_component env (pitem_expr b)) eqn:B; [|discriminate].
        destruct (pattern_component env (pitem_expr c)) eqn:C; [|discriminate].
        injection H as <-.
        apply component_spec in A as [A1 A2], B as [B1 B2], C as [C1 C2].
        split; [now constructor|].
        repeat (apply Forall_cons; [assumption|]); apply Forall_nil.
      + destruct (pattern_component env (pitem_expr a)) eqn:A; [|discriminate].
        destruct (pattern_component env (pitem_expr b)) eqn:B; [|discriminate].
        destruct (pattern_component env (pitem_expr c)) eqn:C; [|discriminate].
        destruct (pattern_component env (pitem_expr d)) eqn:D; [|discriminate].
        injection H as <-.
        apply component_spec in A as [A1 A2], B as [B1 B2], C as [C1 C2], D as [D1 D2].
        split; [now constructor|].
        repeat (apply Forall_cons; [assumption|]); apply Forall_nil.
    - intros (l & -> & M & N); rewrite from_pattern_written; cbn [app].
      destruct M as [a b c s p o A B C|a b c d s p o g A B C D].
      + inversion N as [|? ? Na N1]; inversion N1 as [|? ? Nb N2]; inversion N2 as [|? ? Nc _]; subst.
        cbn [map]; rewrite (proj2 (component_spec a s)), (proj2 (component_spec b p)),
          (proj2 (component_spec c o)) by auto; reflexivity.
      + inversion N as [|? ? Na N1]; inversion N1 as [|? ? Nb N2]; inversion N2 as [|? ? Nc N3];
          inversion N3 as [|? ? Nd _]; subst.
        cbn [map]; rewrite (proj2 (component_spec a s)), (proj2 (component_spec b p)),
          (proj2 (component_spec c o)), (proj2 (component_spec d g)) by auto; reflexivity.
  Qed.

  Lemma pattern_otherwise ts :
    grdf_quad_pattern env ts <> Panics.
  Proof.
    unfold grdf_quad_pattern, checked; destruct (distinct (moved env ts)); [|discriminate].
    destruct (from_pattern [] ts) as [[|a [|b [|c [|d [|]]]]]|]; try discriminate.
    - destruct (pattern_component env a), (pattern_component env b), (pattern_component env c); discriminate.
    - destruct (pattern_component env a), (pattern_component env b), (pattern_component env c),
        (pattern_component env d); discriminate.
  Qed.

  Lemma pno_caret l r : pwritten_all l <> KCaret :: r.
  Proof. destruct l as [|[|[]] l]; discriminate. Qed.

  Lemma pwritten_inj l : forall k, pwritten_all l = pwritten_all k -> l = k.
  Proof.
    induction l as [|a l IH]; intros [|b k] A.
    - reflexivity.
    - destruct b as [|[]]; discriminate.
    - destruct a as [|[]]; discriminate.
    - unfold pwritten_all in A; cbn [flat_map] in A; fold (pwritten_all l) (pwritten_all k) in A.
      assert (X : forall i, a = i -> b = i -> a :: l = b :: k).
      { intros i -> ->; f_equal; apply IH; now apply app_inv_head in A. }
      destruct a as [|[]], b as [|[]]; cbn in A; try discriminate; injection A; intros; subst;
        try (eapply X; reflexivity); exfalso; (eapply pno_caret; eauto; fail) || (eapply pno_caret; symmetry; eauto).
  Qed.

  Lemma constants_never l :
    ~ Forall no_constant l -> grdf_quad_pattern env (pwritten_all l) = NoCompile.
  Proof.
    intros H; destruct (grdf_quad_pattern env (pwritten_all l)) as [| |q] eqn:E; [reflexivity| |].
    - now apply pattern_otherwise in E.
    - apply pattern_value in E as (k & K & [_ F] & _); apply pwritten_inj in K; now subst.
  Qed.
End Macros.

Lemma pattern_constants_refuted :
  exists env iri_ok l q,
    pattern_means env iri_ok l q /\ moved_once env (flat_map pnames l) /\
    grdf_quad_pattern env (pwritten_all l) = NoCompile.
Proof.
  exists (fun x => Some (RvOther x)), (fun _ => true),
    [PVar 0%N; PTerm (IIri (chars "http://example.org/p")); PVar 1%N],
    (Quad (Var 0%N) (Res (TIri (chars "http://example.org/p"))) (Var 1%N) None).
  split; [now repeat constructor|split; [|reflexivity]].
  intros x v [= <-] C; now destruct C.
Qed.

Lemma blank_panics :
  exists ts, grdf_triple (fun _ => None) (fun _ => true) ts = Panics.
Proof.
  exists (written_all [IIri (chars "http://example.org/s"); IIri (chars "http://example.org/p");
    IBlank (chars "a b")]); reflexivity.
Qed.
