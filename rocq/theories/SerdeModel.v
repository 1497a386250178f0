(** Serialization and deserialization (feature [serde]) of blank node identifiers,
    literals, terms, triples, quads, pattern elements and containers.

    A [value] is what a self-describing format of the JSON family holds: the
    derived implementations are modelled on it as serde generates them (structs
    are maps, enum variants are maps with one entry unless the enum is
    [untagged], [Some(x)] is [x] and [None] is null).  Simplifications: errors
    carry no message ([None]); keys are strings; the order in which errors
    are found is not kept.  The texts of a format are outside of the crate. *)
From Coq Require Import List NArith Bool Ascii String.
Import ListNotations.
From Verif Require Import Base TextModel BlankIdModel DisplayModel TermModel TripleModel
  TriplePatternModel BTreeDatasetModel BTreeGraphModel IndexedDatasetModel IndexedGraphModel.
Open Scope panic_scope.

Inductive value :=
| VNull
| VBool (b : bool)
| VNum (n : N)
| VStr (s : text)
| VSeq (l : list value)
| VMap (m : list (text * value)).

(** [Deserialize for String]. *)
Definition de_string (v : value) : option text :=
  match v with VStr s => Some s | _ => None end.

(** [Deserialize for Option<T>]: outer [None] is the error. *)
Definition de_option {A} (de : value -> option A) (v : value) : option (option A) :=
  match v with VNull => Some None | _ => option_map Some (de v) end.
Definition ser_option {A} (ser : A -> value) (x : option A) : value :=
  match x with None => VNull | Some a => ser a end.

(** ** Blank node identifiers *)

(** blankid.rs 130 (derived, [transparent]). *)
Definition ser_blank (b : text) : value := VStr b.
(** blankid.rs 337-377. *)
Definition de_blank (v : value) : option text :=
  match v with VStr s => blank_new s | _ => None end.

(** ** Literals and terms *)
Section Terms.
  (** [IriBuf::new] and [LangTagBuf::new] succeed (crates iref and langtag, whose
      deserializers call them on a string). *)
  Context (iri_ok tag_ok : text -> bool).

  Definition ser_iri (i : text) : value := VStr i.
  Definition de_iri (v : value) : option text :=
    match v with VStr s => if iri_ok s then Some s else None | _ => None end.
  Definition ser_tag (t : text) : value := VStr t.
  Definition de_tag (v : value) : option text :=
    match v with VStr s => if tag_ok s then Some s else None | _ => None end.

  (** literal/type/mod.rs 16-23 (derived); literal/type/ref.rs 15-22 and
      literal/type/cow.rs 12-19 for the borrowed forms. *)
  Definition ser_ltype (t : ltype) : value :=
    match t with
    | LAny i => VMap [(chars "Any", ser_iri i)]
    | LLang l => VMap [(chars "LangString", ser_tag l)]
    end.
  Definition ser_ltype_ref (t : ltype_ref) : value :=
    match t with
    | RAny i => VMap [(chars "Any", ser_iri i)]
    | RLang l => VMap [(chars "LangString", ser_tag l)]
    end.
  Definition ser_ltype_cow (t : ltype_cow) : value :=
    match t with
    | CAny i => VMap [(chars "Any", ser_iri (cow_text i))]
    | CLang l => VMap [(chars "LangString", ser_tag (cow_text l))]
    end.
  Definition de_ltype (v : value) : option ltype :=
    match v with
    | VMap [(k, x)] =>
        if str_eqb k (chars "Any") then option_map LAny (de_iri x)
        else if str_eqb k (chars "LangString") then option_map LLang (de_tag x)
        else None
    | _ => None
    end.

  (** literal/mod.rs 17-24 (derived); literal/ref.rs 14-21 and literal/cow.rs
      10-17 for the borrowed forms. *)
  Definition ser_literal (l : literal) : value :=
    VMap [(chars "value", VStr (l_value l)); (chars "type_", ser_ltype (l_type l))].
  Definition ser_literal_ref (l : literal_ref) : value :=
    VMap [(chars "value", VStr (lr_value l)); (chars "type_", ser_ltype_ref (lr_type l))].
  Definition ser_literal_cow (l : literal_cow) : value :=
    VMap [(chars "value", VStr (cow_text (lc_value l))); (chars "type_", ser_ltype_cow (lc_type l))].
  (** The derived [visit_map]: fields in any order, unknown fields are ignored, a
      field given twice is an error. *)
  Fixpoint literal_fields (m : list (text * value)) (value : option text) (type_ : option ltype)
    : option (option text * option ltype) :=
    match m with
    | [] => Some (value, type_)
    | (k, x) :: r =>
        if str_eqb k (chars "value") then
          match value with
          | Some _ => None
          | None => s <- de_string x ;; literal_fields r (Some s) type_
          end
        else if str_eqb k (chars "type_") then
          match type_ with
          | Some _ => None
          | None => t <- de_ltype x ;; literal_fields r value (Some t)
          end
        else literal_fields r value type_
    end.
  (** The derived [Deserialize]: [visit_map] and [visit_seq]. *)
  Definition de_literal (v : value) : option literal :=
    match v with
    | VMap m =>
        match literal_fields m None None with
        | Some (Some s, Some t) => Some (Literal s t)
        | _ => None
        end
    | VSeq [x; y] => s <- de_string x ;; t <- de_ltype y ;; Some (Literal s t)
    | _ => None
    end.

  (** term/mod.rs 20-28 (derived, [untagged]: the variants are tried in order). *)
  Definition ser_term (t : term) : value :=
    match t with TIri i => ser_iri i | TLit l => ser_literal l end.
  Definition de_term (v : value) : option term :=
    match de_iri v with
    | Some i => Some (TIri i)
    | None => option_map TLit (de_literal v)
    end.

  (** term/local/mod.rs 17-22 (derived, [untagged]). *)
  Definition ser_local (t : local_term) : value :=
    match t with Anonymous b => ser_blank b | Named t => ser_term t end.
  Definition de_local (v : value) : option local_term :=
    match de_blank v with
    | Some b => Some (Anonymous b)
    | None => option_map Named (de_term v)
    end.
End Terms.

(** ** Triples, quads, pattern elements *)

(** triple.rs 13-14 (derived). *)
Definition ser_triple {S P O} (ss : S -> value) (sp : P -> value) (so : O -> value)
    (t : gtriple S P O) : value :=
  VSeq [ss (t_s t); sp (t_p t); so (t_o t)].
Definition de_triple {S P O} (ds : value -> option S) (dp : value -> option P)
    (do : value -> option O) (v : value) : option (gtriple S P O) :=
  match v with
  | VSeq [a; b; c] => s <- ds a ;; p <- dp b ;; o <- do c ;; Some (Triple s p o)
  | _ => None
  end.

(** quad.rs 15-16 (derived). *)
Definition ser_quad {S P O G} (ss : S -> value) (sp : P -> value) (so : O -> value)
    (sg : G -> value) (q : gquad S P O G) : value :=
  VSeq [ss (q_s q); sp (q_p q); so (q_o q); ser_option sg (q_g q)].
Definition de_quad {S P O G} (ds : value -> option S) (dp : value -> option P)
    (do : value -> option O) (dg : value -> option G) (v : value) : option (gquad S P O G) :=
  match v with
  | VSeq [a; b; c; d] =>
      s <- ds a ;; p <- dp b ;; o <- do c ;; g <- de_option dg d ;; Some (Quad s p o g)
  | _ => None
  end.

(** pattern/resource_or_variable.rs 3-7 (derived). *)
Definition ser_rv {T X} (st : T -> value) (sx : X -> value) (r : res_or_var T X) : value :=
  match r with
  | Res t => VMap [(chars "Resource", st t)]
  | Var x => VMap [(chars "Var", sx x)]
  end.
Definition de_rv {T X} (dt : value -> option T) (dx : value -> option X) (v : value)
  : option (res_or_var T X) :=
  match v with
  | VMap [(k, x)] =>
      if str_eqb k (chars "Resource") then option_map Res (dt x)
      else if str_eqb k (chars "Var") then option_map Var (dx x)
      else None
  | _ => None
  end.

(** ** Containers *)

(** [visit_seq] of the four containers: the loop that reads an element and
    inserts it.  The outer option is a panic, the inner one a deserialization
    error. *)
Fixpoint visit_seq {C T} (insert : C -> T -> option (bool * C)) (de : value -> option T)
    (c : C) (l : list value) : option (option C) :=
  match l with
  | [] => Some (Some c)
  | x :: r =>
      match de x with
      | None => Some None
      | Some t => '(_, c') <- insert c t ;; visit_seq insert de c' r
      end
  end.
Definition de_seq {C T} (insert : C -> T -> option (bool * C)) (de : value -> option T)
    (new : C) (v : value) : option (option C) :=
  match v with VSeq l => visit_seq insert de new l | _ => Some None end.
(** [serialize] of the four containers. *)
Definition ser_seq {T} (ser : T -> value) (x : option (nat * list T)) : option value :=
  '(_, l) <- x ;; Some (VSeq (map ser l)).

Section Containers.
  Context {R : Type} (cmp : R -> R -> comparison) (keep : bool).
  Context (ser : R -> value) (de : value -> option R).

  (** btree_dataset.rs 457-468, 471-498. *)
  Definition bd_ser (d : bdataset) : option value :=
    ser_seq (ser_quad ser ser ser ser) (bd_serialize d).
  Definition bd_de (v : value) : option (option bdataset) :=
    de_seq (bd_insert cmp keep) (de_quad de de de de) bd_new v.
  (** btree_graph.rs 431-442, 445-472. *)
  Definition bg_ser (g : bgraph) : option value :=
    ser_seq (ser_triple ser ser ser) (bg_serialize g).
  Definition bg_de (v : value) : option (option bgraph) :=
    de_seq (bg_insert cmp keep) (de_triple de de de) bg_new v.
  (** indexed_btree_dataset.rs 1418-1429, 1432-1461. *)
  Definition id_ser (d : idataset) : option value :=
    ser_seq (ser_quad ser ser ser ser) (id_serialize d).
  Definition id_de (v : value) : option (option idataset) :=
    de_seq (id_insert cmp keep) (de_quad de de de de) id_new v.
  (** indexed_btree_graph.rs 837-848, 851-880. *)
  Definition ig_ser (g : igraph) : option value :=
    ser_seq (ser_triple ser ser ser) (ig_serialize g).
  Definition ig_de (v : value) : option (option igraph) :=
    de_seq (ig_insert cmp keep) (de_triple de de de) ig_new v.
End Containers.
