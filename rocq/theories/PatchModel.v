(** The difference of two containers and its application, as a client of the crate
    writes them; here for quads:

    [[
    fn diff(a: &D, b: &D) -> (Vec<Quad>, Vec<Quad>) {
        let removed = a.iter().filter(|q| !b.contains(q)).collect();
        let added = b.iter().filter(|q| !a.contains(q)).collect();
        (removed, added)
    }

    fn patch(d: &mut D, removed: &[Quad], added: &[Quad]) -> usize {
        let mut n = 0;
        for q in removed { if d.remove(q) { n += 1 } }
        for q in added { if d.insert(q.clone()) { n += 1 } }
        n
    }
    ]]

    [D] is one of the four containers; its operations are parameters of the
    programs, to be instantiated with those of the other models.

    Simplification: the containers of [diff] have one type. *)
From Coq Require Import List.
Import ListNotations.
From Verif Require Import Base.

Section Patch.
  Context {D X : Type}.
  (** /repo/src/dataset/impl/btree_dataset.rs 86-92 [iter], 131-133 [contains],
      139-214 [insert], 220-266 [remove], and the same functions of the other three
      containers; [None] is a panic. *)
  Context (iter : D -> option (list X)) (contains : D -> X -> option bool)
    (insert remove : D -> X -> option (bool * D)).

  (** std [Iterator::filter] with [!d.contains(q)]. *)
  Fixpoint missing (d : D) (l : list X) : option (list X) :=
    match l with
    | [] => Some []
    | x :: l =>
        match contains d x with
        | Some b =>
            match missing d l with
            | Some r => Some (if b then r else x :: r)
            | None => None
            end
        | None => None
        end
    end.

  Definition diff (a b : D) : option (list X * list X) :=
    match iter a with
    | Some l =>
        match missing b l with
        | Some removed =>
            match iter b with
            | Some m =>
                match missing a m with
                | Some added => Some (removed, added)
                | None => None
                end
            | None => None
            end
        | None => None
        end
    | None => None
    end.

  (** One of the loops; [n] counts the changes. *)
  Fixpoint each (f : D -> X -> option (bool * D)) (l : list X) (n : nat) (d : D) : option (nat * D) :=
    match l with
    | [] => Some (n, d)
    | x :: l =>
        match f d x with
        | Some (b, d) => each f l (if b then S n else n) d
        | None => None
        end
    end.

  Definition patch (d : D) (removed added : list X) : option (nat * D) :=
    match each remove removed 0 d with
    | Some (n, d) => each insert added n d
    | None => None
    end.
End Patch.
