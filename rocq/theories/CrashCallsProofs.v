(** The calls that a membership test makes. *)
From Coq Require Import List Bool Arith Lia.
Import ListNotations.
From Verif Require Import Base SlabModel TripleModel SetSpec ContainerSpec Machine BaseProofs
  BResourceModel BTreeDatasetModel BTreeGraphModel IResourceModel IndexedDatasetModel IndexedGraphModel
  CrashModel CrashSpec ICrashModel.

Section Proofs.
  Context {R : Type} (cmp : R -> R -> comparison).

  Lemma quad_calls {St} a b (st : St) :
    makes_calls (m_quad_cmp cmp a b) st (component_calls cmp (quad_parts a) (quad_parts b)) (quad_cmp cmp a b).
  Proof.
    intros n; destruct a as [a1 a2 a3 a4], b as [b1 b2 b3 b4];
      unfold m_quad_cmp, m_then, quad_cmp, quad_parts, component_calls, called, andthen, ret; cbn [q_s q_p q_o q_g].
    destruct n as [|n]; [reflexivity|].
    destruct (cmp a1 b1); cbn; [|now rewrite Nat.sub_0_r..].
    destruct n as [|n]; [reflexivity|].
    destruct (cmp a2 b2); cbn; [|now rewrite Nat.sub_0_r..].
    destruct n as [|n]; [reflexivity|].
    destruct (cmp a3 b3); cbn; [|now rewrite Nat.sub_0_r..].
    destruct a4, b4; cbn; try (now rewrite Nat.sub_0_r).
    destruct n as [|n]; [reflexivity|]; cbn; destruct (cmp r r0); cbn; now rewrite Nat.sub_0_r.
  Qed.

  Lemma triple_calls {St} a b (st : St) :
    makes_calls (m_triple_cmp cmp a b) st (component_calls cmp (triple_parts a) (triple_parts b)) (triple_cmp cmp a b).
  Proof.
    intros n; destruct a as [a1 a2 a3], b as [b1 b2 b3];
      unfold m_triple_cmp, m_then, triple_cmp, triple_parts, component_calls, called, andthen, ret; cbn [t_s t_p t_o].
    destruct n as [|n]; [reflexivity|].
    destruct (cmp a1 b1); cbn; [|now rewrite Nat.sub_0_r..].
    destruct n as [|n]; [reflexivity|].
    destruct (cmp a2 b2); cbn; [|now rewrite Nat.sub_0_r..].
    destruct n as [|n]; [reflexivity|].
    destruct (cmp a3 b3); cbn; now rewrite Nat.sub_0_r.
  Qed.

  Lemma get_one {St K} (c : nat -> K -> act St comparison) (at_ : nat -> option K) (full : K -> K -> act St comparison)
      l a b (st : St) k v :
    (forall i q, c i q = andthen (need (at_ i)) (fun x => full x q)) ->
    makes_calls (full a b) st k v ->
    mapM at_ l = Some [a] ->
    makes_calls (andthen (andthen (m_get c b l) (fun i => ret (is_some i))) (fun x => ret (OBool (X:=K) x))) st k
      (OBool (match v with Eq => true | _ => false end)).
  Proof.
    intros Hc H E; destruct l as [|i [|j l]]; cbn in E; try discriminate.
    - destruct (at_ i) as [x|] eqn:Ei; [|discriminate]; cbn in E; injection E as ->.
      intros n; cbn [m_get]; rewrite Hc, Ei; unfold andthen, need; rewrite H.
      destruct (n <? k); [reflexivity|]; destruct v; reflexivity.
    - destruct (at_ i); [|discriminate]; cbn in E; destruct (at_ j); [|discriminate]; cbn in E.
      destruct (mapM at_ l); discriminate.
  Qed.

  Lemma bd_calls keep d a b :
    bd_iter d = Some [a] ->
    makes_calls (m_bd_step cmp keep (Contains b)) d (component_calls cmp (quad_parts a) (quad_parts b))
      (OBool (match quad_cmp cmp a b with Eq => true | _ => false end)).
  Proof.
    intros E n.
    exact (get_one _ _ _ _ _ _ d _ _ (fun i q => eq_refl) (quad_calls a b d) E n).
  Qed.

  Lemma bg_calls keep d a b :
    bg_iter d = Some [a] ->
    makes_calls (m_bg_step cmp keep (Contains b)) d (component_calls cmp (triple_parts a) (triple_parts b))
      (OBool (match triple_cmp cmp a b with Eq => true | _ => false end)).
  Proof.
    intros E n.
    exact (get_one _ _ _ _ _ _ d _ _ (fun i q => eq_refl) (triple_calls a b d) E n).
  Qed.

  Lemma id_calls keep d a b :
    id_iter d = Some [a] ->
    makes_calls (m_id_step cmp keep (Contains b)) d (component_calls cmp (quad_parts a) (quad_parts b))
      (OBool (match quad_cmp cmp a b with Eq => true | _ => false end)).
  Proof.
    intros E n.
    exact (get_one _ _ _ _ _ _ d _ _ (fun i q => eq_refl) (quad_calls a b d) E n).
  Qed.

  Lemma ig_calls keep d a b :
    ig_iter d = Some [a] ->
    makes_calls (m_ig_step cmp keep (Contains b)) d (component_calls cmp (triple_parts a) (triple_parts b))
      (OBool (match triple_cmp cmp a b with Eq => true | _ => false end)).
  Proof.
    intros E n.
    exact (get_one _ _ _ _ _ _ d _ _ (fun i q => eq_refl) (triple_calls a b d) E n).
  Qed.

End Proofs.
