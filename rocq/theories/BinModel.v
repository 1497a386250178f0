(** Serialization (feature [serde]) in compact formats, which do not describe what
    they hold (bincode, postcard): no names of fields or of variants, a sequence
    is its announced length and then its elements, and [deserialize_any] is
    refused.

    What is written is a list of [item]s, of which the format makes bytes.
    Simplifications: the bytes of an item are outside of the crate; an item that
    is not the expected one is an error (in bytes it may be misread); errors
    carry no message.  Readers give what remains of the input. *)
From Coq Require Import List NArith Bool.
Import ListNotations.
From Verif Require Import Base TextModel BlankIdModel DisplayModel TermModel TripleModel
  TriplePatternModel BTreeDatasetModel BTreeGraphModel IndexedDatasetModel IndexedGraphModel SerdeModel.
Open Scope panic_scope.

Inductive item :=
| ILen (n : nat)
| IVariant (n : nat)
| IOption (some : bool)
| IText (s : text).

Definition reader (A : Type) := list item -> option (A * list item).

(** [Deserialize for String]. *)
Definition read_string : reader text := fun i =>
  match i with IText s :: r => Some (s, r) | _ => None end.

(** [Serialize] and [Deserialize] for [Option<T>]. *)
Definition write_option {A} (write : A -> list item) (x : option A) : list item :=
  match x with None => [IOption false] | Some a => IOption true :: write a end.
Definition read_option {A} (read : reader A) : reader (option A) := fun i =>
  match i with
  | IOption false :: r => Some (None, r)
  | IOption true :: r => '(a, r) <- read r ;; Some (Some a, r)
  | _ => None
  end.

(** [Deserializer::deserialize_any]: these formats refuse it. *)
Definition deserialize_any : reader value := fun _ => None.

(** ** Blank node identifiers *)

(** blankid.rs 130 (derived, [transparent]). *)
Definition write_blank (b : text) : list item := [IText b].
(** blankid.rs 337-377. *)
Definition read_blank : reader text := fun i =>
  '(s, r) <- read_string i ;; b <- blank_new s ;; Some (b, r).

(** ** Literals and terms *)
Section Terms.
  (** See SerdeModel.v. *)
  Context (iri_ok tag_ok : text -> bool).

  Definition write_iri (i : text) : list item := [IText i].
  Definition read_iri : reader text := fun i =>
    '(s, r) <- read_string i ;; if iri_ok s then Some (s, r) else None.
  Definition write_tag (t : text) : list item := [IText t].
  Definition read_tag : reader text := fun i =>
    '(s, r) <- read_string i ;; if tag_ok s then Some (s, r) else None.

  (** literal/type/mod.rs 16-23 (derived): the number of the variant, then its
      content. *)
  Definition write_ltype (t : ltype) : list item :=
    match t with
    | LAny i => IVariant 0 :: write_iri i
    | LLang l => IVariant 1 :: write_tag l
    end.
  Definition read_ltype : reader ltype := fun i =>
    match i with
    | IVariant 0 :: r => '(s, r) <- read_iri r ;; Some (LAny s, r)
    | IVariant 1 :: r => '(s, r) <- read_tag r ;; Some (LLang s, r)
    | _ => None
    end.

  (** literal/mod.rs 17-24 (derived): the fields in the order of their
      declaration ([visit_seq]). *)
  Definition write_literal (l : literal) : list item :=
    IText (l_value l) :: write_ltype (l_type l).
  Definition read_literal : reader literal := fun i =>
    '(s, r) <- read_string i ;; '(t, r) <- read_ltype r ;; Some (Literal s t, r).

  (** term/mod.rs 20-28 (derived, [untagged]: the content of the variant is written
      alone; to read, the input is kept whole with [deserialize_any], on which
      the variants are tried). *)
  Definition write_term (t : term) : list item :=
    match t with TIri i => write_iri i | TLit l => write_literal l end.
  Definition read_term : reader term := fun i =>
    '(v, r) <- deserialize_any i ;; t <- de_term iri_ok tag_ok v ;; Some (t, r).

  (** term/local/mod.rs 17-22 (derived, [untagged]). *)
  Definition write_local (t : local_term) : list item :=
    match t with Anonymous b => write_blank b | Named t => write_term t end.
  Definition read_local : reader local_term := fun i =>
    '(v, r) <- deserialize_any i ;; t <- de_local iri_ok tag_ok v ;; Some (t, r).
End Terms.

(** ** Triples, quads, pattern elements *)

(** triple.rs 13-14 (derived: a tuple structure has no length). *)
Definition write_triple {S P O} (ws : S -> list item) (wp : P -> list item) (wo : O -> list item)
    (t : gtriple S P O) : list item :=
  ws (t_s t) ++ wp (t_p t) ++ wo (t_o t).
Definition read_triple {S P O} (rs : reader S) (rp : reader P) (ro : reader O)
  : reader (gtriple S P O) := fun i =>
  '(s, i) <- rs i ;; '(p, i) <- rp i ;; '(o, i) <- ro i ;; Some (Triple s p o, i).

(** quad.rs 15-16 (derived). *)
Definition write_quad {S P O G} (ws : S -> list item) (wp : P -> list item) (wo : O -> list item)
    (wg : G -> list item) (q : gquad S P O G) : list item :=
  ws (q_s q) ++ wp (q_p q) ++ wo (q_o q) ++ write_option wg (q_g q).
Definition read_quad {S P O G} (rs : reader S) (rp : reader P) (ro : reader O) (rg : reader G)
  : reader (gquad S P O G) := fun i =>
  '(s, i) <- rs i ;; '(p, i) <- rp i ;; '(o, i) <- ro i ;; '(g, i) <- read_option rg i ;;
  Some (Quad s p o g, i).

(** pattern/resource_or_variable.rs 3-7 (derived). *)
Definition write_rv {T X} (wt : T -> list item) (wx : X -> list item) (r : res_or_var T X)
  : list item :=
  match r with Res t => IVariant 0 :: wt t | Var x => IVariant 1 :: wx x end.
Definition read_rv {T X} (rt : reader T) (rx : reader X) : reader (res_or_var T X) := fun i =>
  match i with
  | IVariant 0 :: r => '(t, r) <- rt r ;; Some (Res t, r)
  | IVariant 1 :: r => '(x, r) <- rx r ;; Some (Var x, r)
  | _ => None
  end.

(** ** Containers *)

(** [serialize] of the four containers: the announced length, then each
    element. *)
Definition write_seq {T} (write : T -> list item) (x : option (nat * list T)) : option (list item) :=
  '(n, l) <- x ;; Some (ILen n :: flat_map write l).
(** [visit_seq] of the four containers on a sequence of announced length [n].  The
    outer option is a panic, the inner one an error. *)
Fixpoint read_elements {C T} (insert : C -> T -> option (bool * C)) (read : reader T)
    (n : nat) (c : C) (i : list item) : option (option (C * list item)) :=
  match n with
  | 0 => Some (Some (c, i))
  | S n =>
      match read i with
      | None => Some None
      | Some (t, i) => '(_, c) <- insert c t ;; read_elements insert read n c i
      end
  end.
Definition read_seq {C T} (insert : C -> T -> option (bool * C)) (read : reader T)
    (new : C) (i : list item) : option (option (C * list item)) :=
  match i with ILen n :: i => read_elements insert read n new i | _ => Some None end.

Section Containers.
  Context {R : Type} (cmp : R -> R -> comparison) (keep : bool).
  Context (write : R -> list item) (read : reader R).

  (** btree_dataset.rs 457-468, 471-498. *)
  Definition bd_write (d : bdataset) : option (list item) :=
    write_seq (write_quad write write write write) (bd_serialize d).
  Definition bd_read : list item -> option (option (bdataset * list item)) :=
    read_seq (bd_insert cmp keep) (read_quad read read read read) bd_new.
  (** btree_graph.rs 431-442, 445-472. *)
  Definition bg_write (g : bgraph) : option (list item) :=
    write_seq (write_triple write write write) (bg_serialize g).
  Definition bg_read : list item -> option (option (bgraph * list item)) :=
    read_seq (bg_insert cmp keep) (read_triple read read read) bg_new.
  (** indexed_btree_dataset.rs 1418-1429, 1432-1461. *)
  Definition id_write (d : idataset) : option (list item) :=
    write_seq (write_quad write write write write) (id_serialize d).
  Definition id_read : list item -> option (option (idataset * list item)) :=
    read_seq (id_insert cmp keep) (read_quad read read read read) id_new.
  (** indexed_btree_graph.rs 837-848, 851-880. *)
  Definition ig_write (g : igraph) : option (list item) :=
    write_seq (write_triple write write write) (ig_serialize g).
  Definition ig_read : list item -> option (option (igraph * list item)) :=
    read_seq (ig_insert cmp keep) (read_triple read read read) ig_new.
End Containers.
