(** Programs that load quads of terms into a dataset of resources, with an
    interpretation, and read them back, as a client of the crate writes them:

    [[
    fn load<I>(quads: impl IntoIterator<Item = Quad<LocalTerm>>, i: &mut I, out: &mut BTreeDataset<I::Resource>)
    where I: LocalInterpretationMut {
        for q in quads { out.insert(q.map(|t| i.insert_local_term(t))); }
    }

    fn export<I>(d: &BTreeDataset<I::Resource>, i: &I) -> BTreeDataset<LocalTerm>
    where I: ReverseLocalInterpretation {
        let mut out = BTreeDataset::new();
        for q in d.iter() {
            out.insert(q.map(|r| match i.local_terms_of(r).next().unwrap() {
                CowLocalTerm::Anonymous(b) => LocalTerm::Anonymous(b.into_owned()),
                CowLocalTerm::Named(t) => LocalTerm::Named(t.into_owned()),
            }));
        }
        out
    }
    ]]

    The functions of the crate that they call are those of the other models. *)
From Coq Require Import List.
Import ListNotations.
From Verif Require Import Base TextModel DisplayModel TermModel TripleModel InterpretationModel
  MapCallModel BTreeDatasetModel.

Section Load.
  Context {St R : Type} (M : interp_mut St R) (LM : interp_local_mut St R).
  Context (cmp : R -> R -> comparison) (keep : bool).

  (** The closure given to /repo/src/quad.rs 232-234 [Quad::map]; it calls
      /repo/src/interpretation/mod.rs 135-140 [insert_local_term]. *)
  Definition load_term (t : local_term) (st : St) : R * St :=
    i_insert_local_term M LM st (local_cow_from t).

  (** [load]; /repo/src/dataset/impl/btree_dataset.rs 139-214 [insert]. *)
  Fixpoint load (l : list (quad local_term)) (st : St) (out : @bdataset R)
    : option (@bdataset R * St) :=
    match l with
    | [] => Some (out, st)
    | q :: l =>
        let (q, st) := quad_mapm load_term q st in
        match bd_insert cmp keep out q with
        | Some (_, out) => load l st out
        | None => None
        end
    end.
End Load.

Section Export.
  Context {St R : Type} (V : interp_rev St R) (LV : interp_rev_local St R) (st : St).
  Context (cmp : local_term -> local_term -> comparison) (keep : bool).

  (** The closure given to [Quad::map]; it calls
      /repo/src/interpretation/mod.rs 157-162 [local_terms_of].  Its state is
      whether it has not panicked; the term it answers when it panics is not
      used. *)
  Definition export_term (r : R) (ok : bool) : local_term * bool :=
    match local_terms_next (i_local_terms_of V LV st r) with
    | Some (CAnonymous b, _) => (Anonymous (cow_text b), ok)
    | Some (CNamed t, _) => (Named (term_cow_into_owned t), ok)
    | None => (Anonymous [], false)
    end.

  (** The loop of [export]. *)
  Fixpoint export_into (l : list (quad R)) (out : @bdataset local_term)
    : option (@bdataset local_term) :=
    match l with
    | [] => Some out
    | q :: l =>
        match quad_mapm export_term q true with
        | (q, true) =>
            match bd_insert cmp keep out q with
            | Some (_, out) => export_into l out
            | None => None
            end
        | (_, false) => None
        end
    end.

  (** [export]; /repo/src/dataset/impl/btree_dataset.rs 86-92 [iter], 71-73 [new]. *)
  Definition export (d : @bdataset R) : option (@bdataset local_term) :=
    match bd_iter d with
    | Some l => export_into l bd_new
    | None => None
    end.
End Export.
