(** Terms, literals and identifiers: comparison, hashing, borrowed and
    copy-on-write forms, conversions.  /repo/src/literal, /repo/src/term,
    /repo/src/id.

    Simplifications: a reference is the value it refers to; references and owned
    values are different types here, as in the code.  A [Hash] is the sequence of
    things it feeds to the hasher. *)
From Coq Require Import List NArith Bool.
Import ListNotations.
From Verif Require Import Base TextModel DisplayModel.

(** ** Borrowed and copy-on-write types *)

(** [std::borrow::Cow] *)
Inductive cow := Borrowed (s : text) | Owned (s : text).
Definition cow_text (c : cow) : text := match c with Borrowed s => s | Owned s => s end.

(** literal/type/ref.rs 16-22 *)
Inductive ltype_ref := RAny (iri : text) | RLang (tag : text).
(** literal/type/cow.rs 13-19 *)
Inductive ltype_cow := CAny (iri : cow) | CLang (tag : cow).
(** literal/ref.rs 15-21 *)
Record literal_ref := LiteralRef { lr_value : text; lr_type : ltype_ref }.
(** literal/cow.rs 11-17 *)
Record literal_cow := LiteralCow { lc_value : cow; lc_type : ltype_cow }.
(** term/ref.rs 10-14 *)
Inductive term_ref := RIri (iri : text) | RLit (l : literal_ref).
(** term/cow.rs 9-13 *)
Inductive term_cow := CIri (iri : cow) | CLit (l : literal_cow).
(** term/local/ref.rs 8-12 *)
Inductive local_ref := RAnonymous (b : text) | RNamed (t : term_ref).
(** term/local/cow.rs 6-10 *)
Inductive local_cow := CAnonymous (b : cow) | CNamed (t : term_cow).
(** id/mod.rs 12-15, id/ref.rs 8-11, id/cow.rs 7-10 *)
Inductive rdf_id := IBlank (b : text) | IIri (iri : text).
Inductive id_ref := RIBlank (b : text) | RIIri (iri : text).
Inductive id_cow := CIBlank (b : cow) | CIIri (iri : cow).

(** ** Conversions *)

(** literal/type/mod.rs 48-53, 55-60, 62-67 *)
Definition ltype_as_ref (t : ltype) : ltype_ref :=
  match t with LAny i => RAny i | LLang l => RLang l end.
Definition ltype_as_cow (t : ltype) : ltype_cow :=
  match t with LAny i => CAny (Borrowed i) | LLang l => CLang (Borrowed l) end.
Definition ltype_into_cow (t : ltype) : ltype_cow :=
  match t with LAny i => CAny (Owned i) | LLang l => CLang (Owned l) end.
(** literal/type/ref.rs 49-54 *)
Definition ltype_ref_into_owned (t : ltype_ref) : ltype :=
  match t with RAny i => LAny i | RLang l => LLang l end.
(** literal/type/cow.rs 22-27, 29-34 (and 37-41), 43-50 *)
Definition ltype_cow_as_ref (t : ltype_cow) : ltype_ref :=
  match t with CAny i => RAny (cow_text i) | CLang l => RLang (cow_text l) end.
Definition ltype_cow_into_owned (t : ltype_cow) : ltype :=
  match t with CAny i => LAny (cow_text i) | CLang l => LLang (cow_text l) end.
Definition ltype_cow_from_ref (t : ltype_ref) : ltype_cow :=
  match t with RAny i => CAny (Borrowed i) | RLang l => CLang (Borrowed l) end.
(** literal/type/cow.rs 52-86: the other [From]s, from an IRI or a tag, borrowed,
    owned or copy-on-write. *)
Definition ltype_cow_from_iri (i : cow) : ltype_cow := CAny i.
Definition ltype_cow_from_tag (l : cow) : ltype_cow := CLang l.
(** literal/type/mod.rs 26-28, 30-35 (type/ref.rs 25-34 for references) *)
Definition ltype_is_lang_string (t : ltype) : bool :=
  match t with LLang _ => true | _ => false end.
Definition ltype_lang_tag (t : ltype) : option text :=
  match t with LLang l => Some l | _ => None end.

(** literal/mod.rs 27-32, 58-60, 78-80, 82-84, 86-88 *)
Definition literal_new (v : text) (t : ltype) : literal := Literal v t.
Definition literal_into_parts (l : literal) : text * ltype := (l_value l, l_type l).
Definition literal_as_ref (l : literal) : literal_ref :=
  LiteralRef (l_value l) (ltype_as_ref (l_type l)).
Definition literal_as_cow (l : literal) : literal_cow :=
  LiteralCow (Borrowed (l_value l)) (ltype_as_cow (l_type l)).
Definition literal_into_cow (l : literal) : literal_cow :=
  LiteralCow (Owned (l_value l)) (ltype_into_cow (l_type l)).
(** literal/ref.rs 68-70, 74-76 (and 78-80) *)
Definition literal_ref_into_cow (l : literal_ref) : literal_cow :=
  LiteralCow (Borrowed (lr_value l)) (ltype_cow_from_ref (lr_type l)).
Definition literal_ref_to_owned (l : literal_ref) : literal :=
  literal_new (lr_value l) (ltype_ref_into_owned (lr_type l)).
(** literal/cow.rs 27-29, 31-33, 36-40 *)
Definition literal_cow_as_ref (l : literal_cow) : literal_ref :=
  LiteralRef (cow_text (lc_value l)) (ltype_cow_as_ref (lc_type l)).
Definition literal_cow_into_owned (l : literal_cow) : literal :=
  literal_new (cow_text (lc_value l)) (ltype_cow_into_owned (lc_type l)).
Definition literal_cow_from (l : literal) : literal_cow :=
  LiteralCow (Borrowed (l_value l)) (ltype_cow_from_ref (ltype_as_ref (l_type l))).

(** term/mod.rs 31-98 *)
Definition term_is_iri (t : term) : bool := match t with TIri _ => true | _ => false end.
Definition term_is_literal (t : term) : bool := match t with TLit _ => true | _ => false end.
Definition term_as_literal (t : term) : option literal_ref :=
  match t with TLit l => Some (literal_as_ref l) | _ => None end.
Definition term_into_literal (t : term) : option literal :=
  match t with TLit l => Some l | _ => None end.
Definition term_try_into_literal (t : term) : literal + text :=
  match t with TLit l => inl l | TIri i => inr i end.
Definition term_as_iri (t : term) : option text := match t with TIri i => Some i | _ => None end.
Definition term_try_into_iri (t : term) : text + term :=
  match t with TIri i => inl i | other => inr other end.
Definition term_into_iri (t : term) : option text :=
  match term_try_into_iri t with inl i => Some i | inr _ => None end.
Definition term_as_ref (t : term) : term_ref :=
  match t with TIri i => RIri i | TLit l => RLit (literal_as_ref l) end.
Definition term_as_cow (t : term) : term_cow :=
  match t with TIri i => CIri (Borrowed i) | TLit l => CLit (literal_as_cow l) end.
Definition term_into_cow (t : term) : term_cow :=
  match t with TIri i => CIri (Owned i) | TLit l => CLit (literal_into_cow l) end.
(** term/ref.rs 17-22 *)
Definition term_ref_to_owned (t : term_ref) : term :=
  match t with RIri i => TIri i | RLit l => TLit (literal_ref_to_owned l) end.
(** term/cow.rs 16-21, 24-28 *)
Definition term_cow_into_owned (t : term_cow) : term :=
  match t with CIri i => TIri (cow_text i) | CLit l => TLit (literal_cow_into_owned l) end.
Definition term_cow_from (t : term) : term_cow := term_into_cow t.

(** term/local/mod.rs 25-31, 33-64, 66-85, 88-110 *)
Definition local_iri (i : text) : local_term := Named (TIri i).
Definition local_literal (l : literal) : local_term := Named (TLit l).
Definition local_is_anonymous (t : local_term) : bool :=
  match t with Anonymous _ => true | _ => false end.
Definition local_as_anonymous (t : local_term) : option text :=
  match t with Anonymous b => Some b | Named _ => None end.
Definition local_as_iri (t : local_term) : option text :=
  match t with Named t => term_as_iri t | Anonymous _ => None end.
Definition local_as_literal (t : local_term) : option literal_ref :=
  match t with Named t => term_as_literal t | Anonymous _ => None end.
Definition local_as_ref (t : local_term) : local_ref :=
  match t with Anonymous b => RAnonymous b | Named t => RNamed (term_as_ref t) end.
Definition local_as_cow (t : local_term) : local_cow :=
  match t with Anonymous b => CAnonymous (Borrowed b) | Named t => CNamed (term_as_cow t) end.
Definition local_into_cow (t : local_term) : local_cow :=
  match t with Anonymous b => CAnonymous (Owned b) | Named t => CNamed (term_into_cow t) end.
Definition local_from_iri (i : text) : local_term := local_iri i.
Definition local_from_literal (l : literal) : local_term := local_literal l.
Definition local_from_term (t : term) : local_term := Named t.
Definition local_from_blank (b : text) : local_term := Anonymous b.
(** term/local/ref.rs 15-20 *)
Definition local_ref_to_owned (t : local_ref) : local_term :=
  match t with RAnonymous b => Anonymous b | RNamed t => Named (term_ref_to_owned t) end.
(** term/local/cow.rs 12-16 *)
Definition local_cow_from (t : local_term) : local_cow := local_into_cow t.

(** id/mod.rs 18-37 *)
Definition id_as_iri (i : rdf_id) : option text := match i with IIri i => Some i | _ => None end.
Definition id_as_ref (i : rdf_id) : id_ref :=
  match i with IBlank b => RIBlank b | IIri i => RIIri i end.
Definition id_as_cow (i : rdf_id) : id_cow :=
  match i with IBlank b => CIBlank (Borrowed b) | IIri i => CIIri (Borrowed i) end.
(** id/ref.rs 14-23 *)
Definition id_ref_into_owned (i : id_ref) : rdf_id :=
  match i with RIBlank b => IBlank b | RIIri i => IIri i end.

(** ** Comparison
    Strings and blank identifiers are compared as their texts.  Comparison of
    IRIs and of language tags is that of the crates iref and langtag (owned and
    borrowed forms alike, and [partial_cmp] is [Some] of [cmp]). *)
Definition str_eqb (a b : text) : bool := if list_eq_dec N.eq_dec a b then true else false.
(** [str::cmp] compares bytes; on valid texts that is the order of the code points. *)
Definition str_cmp (a b : text) : comparison := list_cmp N.compare a b.

Section Comparison.
  Context (iri_eqb tag_eqb : text -> text -> bool) (iri_cmp tag_cmp : text -> text -> comparison).

  (** literal/type/mod.rs 15, derived [PartialEq] and [Ord]. *)
  Definition ltype_eqb (a b : ltype) : bool :=
    match a, b with
    | LAny i, LAny j => iri_eqb i j
    | LLang l, LLang m => tag_eqb l m
    | _, _ => false
    end.
  Definition ltype_cmp (a b : ltype) : comparison :=
    match a, b with
    | LAny i, LAny j => iri_cmp i j
    | LAny _, LLang _ => Lt
    | LLang _, LAny _ => Gt
    | LLang l, LLang m => tag_cmp l m
    end.
  (** literal/type/ref.rs 57-65, 67-75 *)
  Definition ltype_ref_eq (a : ltype_ref) (b : ltype) : bool :=
    match a, b with
    | RAny i, LAny j => iri_eqb i j
    | RLang l, LLang m => tag_eqb l m
    | _, _ => false
    end.
  Definition ltype_eq_ref (a : ltype) (b : ltype_ref) : bool :=
    match a, b with
    | LAny i, RAny j => iri_eqb i j
    | LLang l, RLang m => tag_eqb l m
    | _, _ => false
    end.
  (** literal/type/ref.rs 77-86, 88-97 *)
  Definition ltype_ref_partial_cmp (a : ltype_ref) (b : ltype) : option comparison :=
    match a, b with
    | RAny i, LAny j => Some (iri_cmp i j)
    | RAny _, LLang _ => Some Lt
    | RLang _, LAny _ => Some Gt
    | RLang l, LLang m => Some (tag_cmp l m)
    end.
  Definition ltype_partial_cmp_ref (a : ltype) (b : ltype_ref) : option comparison :=
    match a, b with
    | LAny i, RAny j => Some (iri_cmp i j)
    | LAny _, RLang _ => Some Lt
    | LLang _, RAny _ => Some Gt
    | LLang l, RLang m => Some (tag_cmp l m)
    end.

  (** literal/mod.rs 16, derived. *)
  Definition literal_eqb (a b : literal) : bool :=
    str_eqb (l_value a) (l_value b) && ltype_eqb (l_type a) (l_type b).
  Definition literal_cmp (a b : literal) : comparison :=
    match str_cmp (l_value a) (l_value b) with
    | Eq => ltype_cmp (l_type a) (l_type b)
    | c => c
    end.
  (** literal/ref.rs 83-87, 89-93 (and 95-99 [equivalent]) *)
  Definition literal_eq_ref (a : literal) (b : literal_ref) : bool :=
    ltype_eq_ref (l_type a) (lr_type b) && str_eqb (l_value a) (lr_value b).
  Definition literal_ref_eq (a : literal_ref) (b : literal) : bool :=
    ltype_ref_eq (lr_type a) (l_type b) && str_eqb (lr_value a) (l_value b).
  Definition literal_ref_equivalent (a : literal_ref) (key : literal) : bool :=
    literal_ref_eq a key.
  (** literal/ref.rs 101-110, 112-120 *)
  Definition literal_partial_cmp_ref (a : literal) (b : literal_ref) : option comparison :=
    bind (ltype_partial_cmp_ref (l_type a) (lr_type b)) (fun c =>
      Some (then_cmp (str_cmp (l_value a) (lr_value b)) c)).
  Definition literal_ref_partial_cmp (a : literal_ref) (b : literal) : option comparison :=
    bind (ltype_ref_partial_cmp (lr_type a) (l_type b)) (fun c =>
      Some (then_cmp (str_cmp (lr_value a) (l_value b)) c)).

  (** term/mod.rs 19, derived. *)
  Definition term_eqb (a b : term) : bool :=
    match a, b with
    | TIri i, TIri j => iri_eqb i j
    | TLit l, TLit m => literal_eqb l m
    | _, _ => false
    end.
  Definition term_cmp (a b : term) : comparison :=
    match a, b with
    | TIri i, TIri j => iri_cmp i j
    | TIri _, TLit _ => Lt
    | TLit _, TIri _ => Gt
    | TLit l, TLit m => literal_cmp l m
    end.
  (** term/ref.rs 25-33, 35-44 *)
  Definition term_ref_eq (a : term_ref) (b : term) : bool :=
    match a, b with
    | RIri i, TIri j => iri_eqb i j
    | RLit l, TLit m => literal_ref_eq l m
    | _, _ => false
    end.
  Definition term_ref_partial_cmp (a : term_ref) (b : term) : option comparison :=
    match a, b with
    | RIri i, TIri j => Some (iri_cmp i j)
    | RIri _, TLit _ => Some Lt
    | RLit _, TIri _ => Some Gt
    | RLit l, TLit m => literal_ref_partial_cmp l m
    end.

  (** term/local/mod.rs 16, derived. *)
  Definition local_eqb (a b : local_term) : bool :=
    match a, b with
    | Anonymous x, Anonymous y => str_eqb x y
    | Named s, Named t => term_eqb s t
    | _, _ => false
    end.
  Definition local_cmp (a b : local_term) : comparison :=
    match a, b with
    | Anonymous x, Anonymous y => str_cmp x y
    | Anonymous _, Named _ => Lt
    | Named _, Anonymous _ => Gt
    | Named s, Named t => term_cmp s t
    end.
  (** term/local/ref.rs 23-31, 33-42 *)
  Definition local_ref_eq (a : local_ref) (b : local_term) : bool :=
    match a, b with
    | RAnonymous x, Anonymous y => str_eqb x y
    | RNamed s, Named t => term_ref_eq s t
    | _, _ => false
    end.
  Definition local_ref_partial_cmp (a : local_ref) (b : local_term) : option comparison :=
    match a, b with
    | RAnonymous x, Anonymous y => Some (str_cmp x y)
    | RAnonymous _, Named _ => Some Lt
    | RNamed _, Anonymous _ => Some Gt
    | RNamed s, Named t => term_ref_partial_cmp s t
    end.

  (** Derived orders of the borrowed types: literal/type/ref.rs 13, literal/ref.rs
      12, term/ref.rs 9, term/local/ref.rs 7, id/ref.rs 7. *)
  Definition ltype_ref_cmp (a b : ltype_ref) : comparison :=
    match a, b with
    | RAny i, RAny j => iri_cmp i j
    | RAny _, RLang _ => Lt
    | RLang _, RAny _ => Gt
    | RLang l, RLang m => tag_cmp l m
    end.
  Definition literal_ref_cmp (a b : literal_ref) : comparison :=
    match str_cmp (lr_value a) (lr_value b) with
    | Eq => ltype_ref_cmp (lr_type a) (lr_type b)
    | c => c
    end.
  Definition term_ref_cmp (a b : term_ref) : comparison :=
    match a, b with
    | RIri i, RIri j => iri_cmp i j
    | RIri _, RLit _ => Lt
    | RLit _, RIri _ => Gt
    | RLit l, RLit m => literal_ref_cmp l m
    end.
  Definition local_ref_cmp (a b : local_ref) : comparison :=
    match a, b with
    | RAnonymous x, RAnonymous y => str_cmp x y
    | RAnonymous _, RNamed _ => Lt
    | RNamed _, RAnonymous _ => Gt
    | RNamed s, RNamed t => term_ref_cmp s t
    end.
  (** ... and their derived [PartialEq]. *)
  Definition ltype_ref_eqb (a b : ltype_ref) : bool :=
    match a, b with
    | RAny i, RAny j => iri_eqb i j
    | RLang l, RLang m => tag_eqb l m
    | _, _ => false
    end.
  Definition literal_ref_eqb (a b : literal_ref) : bool :=
    str_eqb (lr_value a) (lr_value b) && ltype_ref_eqb (lr_type a) (lr_type b).
  Definition term_ref_eqb (a b : term_ref) : bool :=
    match a, b with
    | RIri i, RIri j => iri_eqb i j
    | RLit l, RLit m => literal_ref_eqb l m
    | _, _ => false
    end.
  Definition local_ref_eqb (a b : local_ref) : bool :=
    match a, b with
    | RAnonymous x, RAnonymous y => str_eqb x y
    | RNamed s, RNamed t => term_ref_eqb s t
    | _, _ => false
    end.
  Definition id_ref_eqb (a b : id_ref) : bool :=
    match a, b with
    | RIBlank x, RIBlank y => str_eqb x y
    | RIIri i, RIIri j => iri_eqb i j
    | _, _ => false
    end.
  Definition id_ref_cmp (a b : id_ref) : comparison :=
    match a, b with
    | RIBlank x, RIBlank y => str_cmp x y
    | RIBlank _, RIIri _ => Lt
    | RIIri _, RIBlank _ => Gt
    | RIIri i, RIIri j => iri_cmp i j
    end.

  (** literal/type/cow.rs 10, literal/cow.rs 8: derived.  std compares two [Cow]s
      as what they deref to. *)
  Definition ltype_cow_eqb (a b : ltype_cow) : bool :=
    match a, b with
    | CAny i, CAny j => iri_eqb (cow_text i) (cow_text j)
    | CLang l, CLang m => tag_eqb (cow_text l) (cow_text m)
    | _, _ => false
    end.
  Definition ltype_cow_cmp (a b : ltype_cow) : comparison :=
    match a, b with
    | CAny i, CAny j => iri_cmp (cow_text i) (cow_text j)
    | CAny _, CLang _ => Lt
    | CLang _, CAny _ => Gt
    | CLang l, CLang m => tag_cmp (cow_text l) (cow_text m)
    end.
  Definition literal_cow_eqb (a b : literal_cow) : bool :=
    str_eqb (cow_text (lc_value a)) (cow_text (lc_value b)) && ltype_cow_eqb (lc_type a) (lc_type b).
  Definition literal_cow_cmp (a b : literal_cow) : comparison :=
    match str_cmp (cow_text (lc_value a)) (cow_text (lc_value b)) with
    | Eq => ltype_cow_cmp (lc_type a) (lc_type b)
    | c => c
    end.
End Comparison.

(** ** Hashing *)

(** What is fed to a hasher: a string, a discriminant, or something fed by the
    hash of an IRI or of a language tag. *)
Inductive token := HStr (s : text) | HDisc (n : nat) | HOther (n : nat).

Section Hashing.
  Context (iri_hash tag_hash : text -> list token).

  Definition str_hash (s : text) : list token := [HStr s].
  (** Derived: literal/type/mod.rs 15 and literal/mod.rs 16; the same for the
      references (literal/type/ref.rs 13, literal/ref.rs 12). *)
  Definition ltype_hash (t : ltype) : list token :=
    match t with LAny i => HDisc 0 :: iri_hash i | LLang l => HDisc 1 :: tag_hash l end.
  Definition literal_hash (l : literal) : list token := str_hash (l_value l) ++ ltype_hash (l_type l).
  Definition ltype_ref_hash (t : ltype_ref) : list token :=
    match t with RAny i => HDisc 0 :: iri_hash i | RLang l => HDisc 1 :: tag_hash l end.
  Definition literal_ref_hash (l : literal_ref) : list token :=
    str_hash (lr_value l) ++ ltype_ref_hash (lr_type l).
  (** literal/type/cow.rs 10, literal/cow.rs 8: derived ([Cow] hashes what it derefs to). *)
  Definition ltype_cow_hash (t : ltype_cow) : list token :=
    match t with
    | CAny i => HDisc 0 :: iri_hash (cow_text i)
    | CLang l => HDisc 1 :: tag_hash (cow_text l)
    end.
  Definition literal_cow_hash (l : literal_cow) : list token :=
    str_hash (cow_text (lc_value l)) ++ ltype_cow_hash (lc_type l).
  (** term/mod.rs 100-107 *)
  Definition term_hash (t : term) : list token :=
    match t with TIri i => iri_hash i | TLit l => literal_hash l end.
  (** term/local/mod.rs 112-119 *)
  Definition local_hash (t : local_term) : list token :=
    match t with Anonymous b => str_hash b | Named t => term_hash t end.
End Hashing.

(** literal/mod.rs 91-95, literal/ref.rs 122-126 [Borrow<str>]. *)
Definition literal_borrow (l : literal) : text := l_value l.
