(** Bringing the changes of another version of a container into one's own, both being
    derived from a common base, as a client of the crate writes it with the programs of
    [PatchModel]:

    [[
    fn pull(base: &D, mine: &mut D, theirs: &D) -> usize {
        let (removed, added) = diff(base, theirs);
        patch(mine, &removed, &added)
    }

    fn pull_all(base: &D, mine: &mut D, versions: &[D]) {
        for theirs in versions { pull(base, mine, theirs); }
    }
    ]]

    Simplifications: those of [PatchModel]. *)
From Verif Require Import Base PatchModel.

Section Pull.
  Context {D X : Type}.
  (** /repo/src/dataset/impl/btree_dataset.rs 86-92 [iter], 131-133 [contains],
      139-214 [insert], 220-266 [remove], and the same functions of the other three
      containers. *)
  Context (iter : D -> option (list X)) (contains : D -> X -> option bool)
    (insert remove : D -> X -> option (bool * D)).

  Definition pull (base mine theirs : D) : option (nat * D) :=
    match diff iter contains base theirs with
    | Some (removed, added) => patch insert remove mine removed added
    | None => None
    end.

  Fixpoint pull_all (base : D) (versions : list D) (mine : D) : option D :=
    match versions with
    | nil => Some mine
    | cons theirs versions =>
        match pull base mine theirs with
        | Some (_, mine) => pull_all base versions mine
        | None => None
        end
    end.
End Pull.
