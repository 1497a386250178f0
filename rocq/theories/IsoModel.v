(** Blank node bijections between datasets: /repo/src/dataset/isomorphism.rs.

    Simplifications.  A dataset is the list of what its [quads] yields.  A
    reference is the value it points to.  A [BTreeMap] is the list of its entries
    in increasing order of the keys, a [BTreeSet] that of its elements.  [eprintln!]
    is left out.  Counts do not overflow.  [None] is a panic: that of an [unwrap]. *)
From Coq Require Import List Bool Arith.
Import ListNotations.
From Verif Require Import Base TextModel DisplayModel TermModel TripleModel InterpretationModel.

(** ** std: [BTreeMap] and [BTreeSet] *)
Section Map.
  Context {K V : Type} (cmp : K -> K -> comparison).

  (** [BTreeMap::get] *)
  Fixpoint m_get (k : K) (m : list (K * V)) : option V :=
    match m with
    | [] => None
    | (k', v) :: r => match cmp k k' with Eq => Some v | _ => m_get k r end
    end.
  (** [BTreeMap::contains_key] *)
  Definition m_contains (k : K) (m : list (K * V)) : bool :=
    match m_get k m with Some _ => true | None => false end.
  (** [BTreeMap::entry]: the value becomes [f] of the former one, if any. *)
  Fixpoint m_alter (k : K) (f : option V -> V) (m : list (K * V)) : list (K * V) :=
    match m with
    | [] => [(k, f None)]
    | (k', v) :: r =>
        match cmp k k' with
        | Eq => (k', f (Some v)) :: r
        | Lt => (k, f None) :: m
        | Gt => (k', v) :: m_alter k f r
        end
    end.
  (** [BTreeMap::insert] *)
  Definition m_insert (k : K) (v : V) (m : list (K * V)) : list (K * V) :=
    m_alter k (fun _ => v) m.
End Map.

(** [BTreeSet::insert] *)
Fixpoint s_insert {K} (cmp : K -> K -> comparison) (k : K) (s : list K) : list K :=
  match s with
  | [] => [k]
  | k' :: r =>
      match cmp k k' with
      | Eq => s
      | Lt => k :: s
      | Gt => k' :: s_insert cmp k r
      end
  end.

(** [slice::sort_unstable]: some sort (elements that compare equal are equal). *)
Fixpoint sort_insert {A} (cmp : A -> A -> comparison) (x : A) (l : list A) : list A :=
  match l with
  | [] => [x]
  | y :: r => match cmp x y with Gt => y :: sort_insert cmp x r | _ => x :: l end
  end.
Definition sort_unstable {A} (cmp : A -> A -> comparison) (l : list A) : list A :=
  fold_right (sort_insert cmp) [] l.

(** ** Equality of the terms of a resource *)
Section Cow.
  Context (iri_eqb tag_eqb : text -> text -> bool).
  (** [PartialEq] of [Cow<Iri>] is that of [Iri]; literal/cow.rs 8 and
      literal/type/cow.rs 10, derived. *)
  Definition cow_iri_eqb (a b : cow) : bool := iri_eqb (cow_text a) (cow_text b).
  Definition ltype_cow_eqb (a b : ltype_cow) : bool :=
    match a, b with
    | CAny i, CAny j => iri_eqb (cow_text i) (cow_text j)
    | CLang l, CLang m => tag_eqb (cow_text l) (cow_text m)
    | _, _ => false
    end.
  Definition literal_cow_eqb (a b : literal_cow) : bool :=
    str_eqb (cow_text (lc_value a)) (cow_text (lc_value b)) && ltype_cow_eqb (lc_type a) (lc_type b).
End Cow.

(** ** isomorphism.rs *)
Section Iso.
  Context {R St : Type} (cmp : R -> R -> comparison).
  Context (iri_eqb tag_eqb : text -> text -> bool).
  Context (I : interp_rev St R) (st : St).

  (** [==] on resources. *)
  Definition r_eqb (a b : R) : bool := match cmp a b with Eq => true | _ => false end.

  (** 130-144 and 276-290: the two loops over the terms of both resources. *)
  Definition shares_term (a b : R) : bool :=
    existsb (fun x => existsb (fun y => cow_iri_eqb iri_eqb x y) (i_iris_of I st b)) (i_iris_of I st a)
    || existsb (fun x => existsb (fun y => literal_cow_eqb iri_eqb tag_eqb x y)
         (i_literals_of I st b)) (i_literals_of I st a).
  (** 126-147 *)
  Definition resource_matches (a b : R) : bool :=
    shares_term a b || (i_is_anonymous I st a && i_is_anonymous I st b).

  (** 149-161 and 301-313, for one of the two comparisons of resources. *)
  Definition quad_with (f : R -> R -> bool) (a b : quad R) : bool :=
    f (q_s a) (q_s b) && f (q_p a) (q_p b) && f (q_o a) (q_o b) &&
    match q_g a, q_g b with
    | Some x, Some y => f x y
    | None, None => true
    | _, _ => false
    end.
  Definition quad_matches (a b : quad R) : bool := quad_with resource_matches a b.

  (** 163-188 *)
  Definition blank_count (q : quad R) : nat :=
    (if i_is_anonymous I st (q_s q) then 1 else 0) +
    (if i_is_anonymous I st (q_p q) then 1 else 0) +
    (if i_is_anonymous I st (q_o q) then 1 else 0) +
    match q_g q with
    | Some g => if i_is_anonymous I st g then 1 else 0
    | None => 0
    end.
  (** 64, 65 *)
  Definition total_blank_count (d : list (quad R)) : nat :=
    fold_left (fun c q => c + blank_count q) d 0.

  (** 394 [BlankSignature]; 396-400 [default] is the empty one; 403-405 *)
  Local Notation signature := (list (quad R)).
  Definition sig_insert (q : quad R) (s : signature) : signature := s ++ [q].
  Local Notation signatures := (list (R * signature)).

  (** 200-202 and so on: [map.entry(r).or_default().insert(quad)] if [r] is anonymous. *)
  Definition collect_at (r : R) (q : quad R) (m : signatures) : signatures :=
    if i_is_anonymous I st r
    then m_alter cmp r (fun o => sig_insert q (match o with Some s => s | None => [] end)) m
    else m.
  (** 199-217, one round *)
  Definition collect_quad (m : signatures) (q : quad R) : signatures :=
    let m := collect_at (q_s q) q m in
    let m := collect_at (q_p q) q m in
    let m := collect_at (q_o q) q m in
    match q_g q with Some g => collect_at g q m | None => m end.
  (** 190-222, for an empty map *)
  Definition collect_signatures (d : list (quad R)) : signatures :=
    map (fun '(r, s) => (r, sort_unstable (quad_cmp cmp) s)) (fold_left collect_quad d []).

  (** 224-246 *)
  Local Notation groups := (list (nat * signatures)).
  Definition split_by_size (m : signatures) : groups :=
    fold_left (fun res '(r, s) =>
      m_alter Nat.compare (length s)
        (fun o => match o with
                  | None => m_insert cmp r s []
                  | Some g => m_insert cmp r s g
                  end) res) m [].

  (** 417-428 and 326-339: the first quad of [other] not yet taken that matches is
      taken. *)
  Fixpoint take_match (f : quad R -> quad R -> bool) (q : quad R) (other : list (option (quad R)))
    : option (list (option (quad R))) :=
    match other with
    | [] => None
    | None :: r => option_map (cons None) (take_match f q r)
    | Some o :: r =>
        if f q o then Some (None :: r) else option_map (cons (Some o)) (take_match f q r)
    end.
  Fixpoint take_all (f : quad R -> quad R -> bool) (l : signature) (other : list (option (quad R)))
    : bool :=
    match l with
    | [] => true
    | q :: r => match take_match f q other with
                | Some other => take_all f r other
                | None => false
                end
    end.
  (** 411-434 and 315-345 *)
  Definition sig_with (f : quad R -> quad R -> bool) (a b : signature) : bool :=
    if length a =? length b then take_all f a (map Some b) else false.
  Definition sig_matches (a b : signature) : bool := sig_with quad_matches a b.

  (** 252-255, 258-263, 267-270 [BTreeBijection] *)
  Record bijection := Bijection { forward : list (R * R); backward : list (R * R) }.
  Definition bij_new : bijection := Bijection [] [].
  Definition bij_insert (a b : R) (s : bijection) : bijection :=
    Bijection (m_insert cmp a b (forward s)) (m_insert cmp b a (backward s)).

  (** 272-299 *)
  Definition resource_matches_with (s : bijection) (a b : R) : bool :=
    shares_term a b ||
    match m_get cmp a (forward s) with
    | Some c => r_eqb c b
    | None =>
        match m_get cmp b (backward s) with
        | Some c => r_eqb a c
        | None => true
        end
    end.
  (** 301-313, 315-345 *)
  Definition quad_matches_with (s : bijection) (a b : quad R) : bool :=
    quad_with (resource_matches_with s) a b.
  Definition sig_matches_with (s : bijection) (a b : signature) : bool :=
    sig_with (quad_matches_with s) a b.

  (** 347-389; the outer [option] is panicking (366, 367). *)
  Fixpoint find_from_candidates (s : bijection) (cands : list (R * list R)) (am bm : signatures)
    : option (option bijection) :=
    match cands with
    | [] => Some (Some s)
    | (a, bs) :: cands =>
        (fix try (bs : list R) : option (option bijection) :=
           match bs with
           | [] => Some None
           | b :: bs =>
               if m_contains cmp b (backward s) then try bs
               else
                 let s' := bij_insert a b s in
                 match m_get cmp a am, m_get cmp b bm with
                 | Some sa, Some sb =>
                     if sig_matches_with s' sa sb then
                       match find_from_candidates s' cands am bm with
                       | None => None
                       | Some (Some f) => Some (Some f)
                       | Some None => try bs
                       end
                     else try bs
                 | _, _ => None
                 end
           end) bs
    end.

  (** 102-107 *)
  Definition candidates_of (sa : signature) (group : signatures) : list R :=
    fold_left (fun c '(b, sb) => if sig_matches sa sb then s_insert cmp b c else c) group [].
  (** 101-115: [None] is [return None]. *)
  Fixpoint candidates_group (ag bg : signatures) (c : list (R * list R))
    : option (list (R * list R)) :=
    match ag with
    | [] => Some c
    | (a, sa) :: ag =>
        match candidates_of sa bg with
        | [] => None
        | bs => candidates_group ag bg (m_insert cmp a bs c)
        end
    end.
  (** 98-116; the outer [option] is panicking (99). *)
  Fixpoint candidates (ags bgs : groups) (c : list (R * list R))
    : option (option (list (R * list R))) :=
    match ags with
    | [] => Some (Some c)
    | (n, ag) :: ags =>
        match m_get Nat.compare n bgs with
        | None => None
        | Some bg =>
            match candidates_group ag bg c with
            | None => Some None
            | Some c => candidates ags bgs c
            end
        end
    end.

  (** 49-124; [quads_count] is dataset/mod.rs 39-41. *)
  Definition find_bijection_with (a b : list (quad R)) : option (option bijection) :=
    if negb (length a =? length b) then Some None
    else if negb (total_blank_count a =? total_blank_count b) then Some None
    else
      let am := collect_signatures a in
      let bm := collect_signatures b in
      if negb (length am =? length bm) then Some None
      else
        let ag := split_by_size am in
        let bg := split_by_size bm in
        if negb (length ag =? length bg) then Some None
        else if negb (forallb (fun '(n, _) => m_contains Nat.compare n bg) ag) then Some None
        else
          match candidates ag bg [] with
          | None => None
          | Some None => Some None
          | Some (Some c) => find_from_candidates bij_new c am bm
          end.
  (** 25-33 *)
  Definition are_isomorphic_with (a b : list (quad R)) : option bool :=
    option_map (fun o => match o with Some _ => true | None => false end) (find_bijection_with a b).
End Iso.
Arguments bijection R : clear implicits.
Arguments Bijection {R} _ _.
Arguments forward {R} _.
Arguments backward {R} _.

(** 38-44 and 12-18: on [LocalTerm], with the interpretation [()]. *)
Section Local.
  Context (iri_eqb tag_eqb : text -> text -> bool) (iri_cmp tag_cmp : text -> text -> comparison).
  Definition find_bijection (a b : list (quad local_term)) : option (option (bijection local_term)) :=
    find_bijection_with (local_cmp iri_cmp tag_cmp) iri_eqb tag_eqb unit_rev tt a b.
  Definition are_isomorphic (a b : list (quad local_term)) : option bool :=
    are_isomorphic_with (local_cmp iri_cmp tag_cmp) iri_eqb tag_eqb unit_rev tt a b.
End Local.
