(** A program that tells whether a graph entails another (simple entailment of
    RDF), as a client of the crate writes it with the program of [JoinModel]:

    [[
    fn entails(g: &IndexedBTreeGraph<LocalTerm>, h: &BTreeGraph<LocalTerm>) -> bool {
        let patterns: Vec<TriplePattern<LocalTerm, BlankIdBuf>> = h.iter().map(|t| t.cloned().map(|t| match t {
            LocalTerm::Anonymous(b) => ResourceOrVar::Var(b),
            t => ResourceOrVar::Resource(t),
        })).collect();
        let mut out = Vec::new();
        solve(g, &patterns, Vec::new(), &mut out);
        !out.is_empty()
    }

    fn entails_rebuilt(g: &IndexedBTreeGraph<LocalTerm>, h: &BTreeGraph<LocalTerm>) -> bool {
        entails(&g.iter().map(|t| t.cloned()).collect(), h)
    }
    ]]

    The functions of the crate that they call are those of the other models. *)
From Coq Require Import List.
Import ListNotations.
From Verif Require Import Base TextModel DisplayModel TermModel TripleModel TriplePatternModel BTreeGraphModel
  IndexedGraphModel JoinModel.

(** The closure given to /repo/src/triple.rs 171-173 [Triple::map]. *)
Definition as_variable (t : local_term) : res_or_var local_term text :=
  match t with Anonymous b => Var b | Named _ => Res t end.

Section Entail.
  Context (cmp : local_term -> local_term -> comparison) (spare : nat).

  (** [entails]; /repo/src/dataset/graph/impl/btree_graph.rs [BTreeGraph::iter] as
      in [BTreeGraphModel], [solve] as in [JoinModel]. *)
  Definition entails (g : @igraph local_term) (h : @bgraph local_term) : option bool :=
    match bg_iter h with
    | None => None
    | Some l =>
        option_map (fun out => match out with [] => false | _ :: _ => true end)
          (solve cmp str_eqb g spare (map (triple_map as_variable) l) [])
    end.

  (** [entails_rebuilt]; [iter] and [from_iter] as in [IndexedGraphModel]. *)
  Definition entails_rebuilt (keep : bool) (g : @igraph local_term) (h : @bgraph local_term) : option bool :=
    match ig_iter g with
    | None => None
    | Some l => match ig_from_iter cmp keep l with Some g => entails g h | None => None end
    end.
End Entail.
