(** A program that solves several triple patterns together on an
    [IndexedBTreeGraph], as a client of the crate writes it:

    [[
    fn solve<R, X>(g: &IndexedBTreeGraph<R>, patterns: &[TriplePattern<R, X>], b: Vec<(X, R)>, out: &mut Vec<Vec<(X, R)>>)
    where R: Clone + Ord, X: Clone + PartialEq {
        match patterns {
            [] => out.push(b),
            [p, rest @ ..] => {
                let c = CanonicalTriplePattern::from(p.clone().map(|r| match r {
                    ResourceOrVar::Var(x) => match bound(&x, &b) {
                        Some(v) => ResourceOrVar::Resource(v.clone()),
                        None => ResourceOrVar::Var(x),
                    },
                    r => r,
                }));
                for t in g.triple_pattern_matching(c.as_ref()) { solve(g, rest, bind(p, t, b.clone()), out) }
            }
        }
    }
    ]]

    The functions of the crate that it calls are those of the other models.

    Simplification: what is pushed is returned as a list. *)
From Coq Require Import List.
Import ListNotations.
From Verif Require Import Base TripleModel TriplePatternModel IndexedGraphModel.

Section Join.
  Context {R X : Type} (cmp : R -> R -> comparison) (xeqb : X -> X -> bool).
  Context (g : @igraph R) (spare : nat).

  (** The value of a variable. *)
  Fixpoint bound (x : X) (b : list (X * R)) : option R :=
    match b with
    | [] => None
    | (y, v) :: b => if xeqb y x then Some v else bound x b
    end.

  (** The closure given to [map]. *)
  Definition fill (b : list (X * R)) (r : res_or_var R X) : res_or_var R X :=
    match r with
    | Res _ => r
    | Var x => match bound x b with Some v => Res v | None => r end
    end.

  (** [bind]: the variables of the pattern that have no value get one. *)
  Definition bind_one (r : res_or_var R X) (v : R) (b : list (X * R)) : list (X * R) :=
    match r with
    | Res _ => b
    | Var x => match bound x b with Some _ => b | None => b ++ [(x, v)] end
    end.
  Definition bind_all (p : triple_pattern R X) (t : triple R) (b : list (X * R)) : list (X * R) :=
    bind_one (t_o p) (t_o t) (bind_one (t_p p) (t_p t) (bind_one (t_s p) (t_s t) b)).

  (** [solve]; /repo/src/triple.rs 171-173 [Triple::map],
      /repo/src/pattern/triple/canonical.rs 27-31 [From], and
      [triple_pattern_matching] as in [IndexedGraphModel]. *)
  Fixpoint solve (ps : list (triple_pattern R X)) (b : list (X * R)) : option (list (list (X * R))) :=
    match ps with
    | [] => Some [b]
    | p :: ps =>
        match ig_pattern_matching cmp g spare (ct_from_pattern xeqb (triple_map (fill b) p)) with
        | None => None
        | Some l => option_map (@concat _) (mapM (fun t => solve ps (bind_all p t b)) l)
        end
    end.
End Join.
