(** C54: the macros.  Names of the notation ([written], [means], ...) are in MacroSpec.v. *)
From Coq Require Import List NArith Ascii String.
Import ListNotations.
From Verif Require Import TextModel BlankIdSpec DisplayModel TripleModel TriplePatternModel
  MacroModel MacroSpec MacroProofs.

Theorem c54_triple_exact : forall env iri_ok ts t,
  grdf_triple env iri_ok ts = Value t <->
  exists l, ts = written_all l /\ triple_means env iri_ok l t /\ moved_once env (flat_map names l).
Proof. exact triple_value. Qed.
Print Assumptions c54_triple_exact.

Theorem c54_triple_panics : forall env iri_ok ts,
  grdf_triple env iri_ok ts = Panics <->
  exists l, ts = written_all l /\
    (List.length l = 3 /\ Forall (almost env iri_ok) l /\
     ~ exists t, triple_means env iri_ok l t) /\
    moved_once env (flat_map names l).
Proof. exact triple_panics. Qed.
Print Assumptions c54_triple_panics.

Theorem c54_quad_exact : forall env iri_ok ts q,
  grdf_quad env iri_ok ts = Value q <->
  exists l, ts = written_all l /\ quad_means env iri_ok l q /\ moved_once env (flat_map names l).
Proof. exact quad_value. Qed.
Print Assumptions c54_quad_exact.

Theorem c54_quad_panics : forall env iri_ok ts,
  grdf_quad env iri_ok ts = Panics <->
  exists l, ts = written_all l /\
    ((List.length l = 3 \/ List.length l = 4) /\ Forall (almost env iri_ok) l /\
     ~ exists q, quad_means env iri_ok l q) /\
    moved_once env (flat_map names l).
Proof. exact quad_panics. Qed.
Print Assumptions c54_quad_panics.

Theorem c54_triples_exact : forall env iri_ok ts k,
  grdf_triples env iri_ok ts = Value k <->
  exists l, ts = written_statements l /\ Forall2 (triple_means env iri_ok) l k /\
    moved_once env (flat_map (flat_map names) l).
Proof. exact triples_value. Qed.
Print Assumptions c54_triples_exact.

Theorem c54_triples_panics : forall env iri_ok ts,
  grdf_triples env iri_ok ts = Panics <->
  exists l, ts = written_statements l /\
    (Forall (fun s => List.length s = 3 /\ Forall (almost env iri_ok) s) l /\
     Exists (fun s => ~ exists t, triple_means env iri_ok s t) l) /\
    moved_once env (flat_map (flat_map names) l).
Proof. exact triples_panics. Qed.
Print Assumptions c54_triples_panics.

Theorem c54_quads_exact : forall env iri_ok ts k,
  grdf_quads env iri_ok ts = Value k <->
  exists l, ts = written_statements l /\ Forall2 (quad_means env iri_ok) l k /\
    moved_once env (flat_map (flat_map names) l).
Proof. exact quads_value. Qed.
Print Assumptions c54_quads_exact.

Theorem c54_quads_panics : forall env iri_ok ts,
  grdf_quads env iri_ok ts = Panics <->
  exists l, ts = written_statements l /\
    (Forall (fun s => (List.length s = 3 \/ List.length s = 4) /\ Forall (almost env iri_ok) s) l /\
     Exists (fun s => ~ exists q, quad_means env iri_ok s q) l) /\
    moved_once env (flat_map (flat_map names) l).
Proof. exact quads_panics. Qed.
Print Assumptions c54_quads_panics.

Theorem c54_one_reading : forall l k, written_all l = written_all k -> l = k.
Proof. exact written_inj. Qed.
Print Assumptions c54_one_reading.

(** Missing: patterns with constants. *)
Theorem c54_pattern_exact_partial : forall env iri_ok ts q,
  grdf_quad_pattern env ts = Value q <->
  exists l, ts = pwritten_all l /\ (pattern_means env iri_ok l q /\ Forall no_constant l) /\
    moved_once env (flat_map pnames l).
Proof. exact pattern_value. Qed.
Print Assumptions c54_pattern_exact_partial.

Theorem c54_pattern_constants_refuted :
  exists env iri_ok l q,
    pattern_means env iri_ok l q /\ moved_once env (flat_map pnames l) /\
    grdf_quad_pattern env (pwritten_all l) = NoCompile.
Proof. exact pattern_constants_refuted. Qed.
Print Assumptions c54_pattern_constants_refuted.

Theorem c54_pattern_no_constant_compiles : forall env l,
  ~ Forall no_constant l -> grdf_quad_pattern env (pwritten_all l) = NoCompile.
Proof. exact (fun env => constants_never env (fun _ => true)). Qed.
Print Assumptions c54_pattern_no_constant_compiles.

Theorem c54_pattern_never_panics : forall env ts, grdf_quad_pattern env ts <> Panics.
Proof. exact pattern_otherwise. Qed.
Print Assumptions c54_pattern_never_panics.

(** Two statements, one with a graph, and the blank node of a variable. *)
Example c54_quads_example :
  grdf_quads (fun x => if N.eqb x 7 then Some (RvBlank (chars "_:x")) else None) (fun _ => true)
    (written_statements
       [[IVar 7; IIri (chars "http://example.org/p"); IPlain (chars "v")];
        [IBlank (chars "b"); IIri (chars "http://example.org/p");
         ITyped (chars "1") (chars "http://www.w3.org/2001/XMLSchema#integer");
         IIri (chars "http://example.org/g")]])
  = Value
      [Quad (Anonymous (chars "_:x")) (Named (TIri (chars "http://example.org/p")))
         (Named (TLit (Literal (chars "v") (LAny (chars "http://www.w3.org/2001/XMLSchema#string")))))
         None;
       Quad (Anonymous (chars "_:b")) (Named (TIri (chars "http://example.org/p")))
         (Named (TLit (Literal (chars "1") (LAny (chars "http://www.w3.org/2001/XMLSchema#integer")))))
         (Some (Named (TIri (chars "http://example.org/g"))))].
Proof. reflexivity. Qed.

Example c54_panics_example :
  exists ts, grdf_triple (fun _ => None) (fun _ => true) ts = Panics.
Proof. exact blank_panics. Qed.

Example c54_pattern_example :
  grdf_quad_pattern (fun x => if N.eqb x 7 then Some (RvTerm (TIri (chars "http://example.org/p")))
                              else Some (RvOther x))
    (pwritten_all [PVar 1; PTerm (IVar 7); PVar 2])
  = Value (Quad (Var 1%N) (Res (TIri (chars "http://example.org/p"))) (Var 2%N) None).
Proof. reflexivity. Qed.

(** A variable of type [LocalTerm] used twice; a [Copy] one; a character. *)
Example c54_moved_example :
  grdf_triple (fun _ => Some (RvLocal (Anonymous (chars "_:x")))) (fun _ => true)
    (written_all [IVar 7; IIri (chars "http://example.org/p"); IVar 7]) = NoCompile.
Proof. reflexivity. Qed.

Example c54_copied_example :
  grdf_triple (fun _ => Some (RvCopy (Anonymous (chars "_:x")))) (fun _ => true)
    (written_all [IVar 7; IVar 7; IChar 97%N]) =
  Value (Triple (Anonymous (chars "_:x")) (Anonymous (chars "_:x"))
    (Named (TLit (Literal (chars "a") (LAny (chars "http://www.w3.org/2001/XMLSchema#string")))))).
Proof. reflexivity. Qed.
