(** The tests of tests/iso.rs and tests/iso-negative.rs, to validate the model: the
    examples of RepoTestsIso1.v to RepoTestsIsoNegative.v run the model of
    [BTreeDataset] and of the isomorphism search on the inputs of these tests. *)
From Coq Require Import NArith List Bool String.
Import ListNotations.
From Verif Require Import Base TextModel BlankIdModel DisplayModel TermModel TripleModel SlabModel BResourceModel
  BTreeDatasetModel IsoModel.

(** The terms that occur: <http://example.com/n>, <http://example.com/fail>, _:n and _:sn. *)
Inductive test_term := U (n : N) | F | B (n : N) | T (n : N).

(** [LocalTerm::iri(iri!(..).to_owned())], [LocalTerm::Anonymous(BlankIdBuf::new(..).unwrap())] *)
Definition local_of (t : test_term) : option local_term :=
  match t with
  | U n => Some (local_iri (chars "http://example.com/" ++ dec n))
  | F => Some (local_iri (chars "http://example.com/fail"))
  | B n => option_map Anonymous (blank_new (chars "_:" ++ dec n))
  | T n => option_map Anonymous (blank_new (chars "_:s" ++ dec n))
  end.
Definition quad_of (q : test_term * test_term * test_term) : option (quad local_term) :=
  let '(s, p, o) := q in
  s <- local_of s ;; p <- local_of p ;; o <- local_of o ;; Some (Quad s p o None).

Definition test_cmp : local_term -> local_term -> comparison := local_cmp str_cmp str_cmp.
Definition test_eqb : local_term -> local_term -> bool := local_eqb str_eqb str_eqb.

(** [let mut a = BTreeDataset::new(); a.insert(..); ..] *)
Fixpoint inserts (keep : bool) (l : list (quad local_term)) (d : @bdataset local_term)
  : option (@bdataset local_term) :=
  match l with
  | [] => Some d
  | q :: r => '(_, d) <- bd_insert test_cmp keep d q ;; inserts keep r d
  end.
Definition test_dataset (keep : bool) (l : list (test_term * test_term * test_term))
  : option (@bdataset local_term) :=
  l <- mapM quad_of l ;; inserts keep l bd_new.

(** iso-negative.rs 3-7: no panic *)
Definition not_found_as (keep : bool) (a b : list (test_term * test_term * test_term)) : bool :=
  match (a <- test_dataset keep a ;; b <- test_dataset keep b ;;
         x <- bd_iter a ;; y <- bd_iter b ;;
         find_bijection str_eqb str_eqb str_cmp str_cmp x y) with
  | Some None => true
  | _ => false
  end.

(** iso.rs 6-29: no panic *)
Definition substitute (f : list (local_term * local_term)) (t : local_term) : option local_term :=
  if local_is_anonymous t
  then option_map snd (find (fun p => test_eqb (fst p) t) f)
  else Some t.
Definition substitute_quad (f : list (local_term * local_term)) (q : quad local_term)
  : option (quad local_term) :=
  s <- substitute f (q_s q) ;; p <- substitute f (q_p q) ;; o <- substitute f (q_o q) ;;
  match q_g q with
  | None => Some (Quad s p o None)
  | Some g => g <- substitute f g ;; Some (Quad s p o (Some g))
  end.
Definition found_as (keep : bool) (a b : list (test_term * test_term * test_term)) : bool :=
  match (a <- test_dataset keep a ;; b <- test_dataset keep b ;;
         x <- bd_iter a ;; y <- bd_iter b ;;
         r <- find_bijection str_eqb str_eqb str_cmp str_cmp x y ;;
         f <- r ;;
         l <- bd_into_iter a ;; l <- mapM (substitute_quad (forward f)) l ;;
         c <- bd_from_iter test_cmp keep l ;;
         bd_eqb test_eqb c b) with
  | Some true => true
  | _ => false
  end.

(** Both behaviours of the tree on equal items (SlabModel.v). *)
Definition not_found (a b : list (test_term * test_term * test_term)) : bool :=
  not_found_as true a b && not_found_as false a b.
Definition found (a b : list (test_term * test_term * test_term)) : bool :=
  found_as true a b && found_as false a b.
