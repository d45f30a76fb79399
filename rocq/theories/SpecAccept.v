(** * SpecAccept: which round constants the Poseidon constructor can work with

    [r] is the number of full rounds at the beginning, [rp] the number of partial rounds.
    Nothing here refers to the model. *)
From Verif Require Import Base.

(** The constants of the partial rounds: all rows exist; the first has at least t entries, those in
    the middle exactly t; the last exactly t in debug builds, at most t in release builds.  With a
    single partial round its row may have any length.  Rows of full rounds are not looked at. *)
Definition constants_shape {F} (dbg : bool) (t r rp : nat) (rc : list (list F)) : Prop :=
  r + rp <= length rc /\
  (2 <= rp ->
    t <= length (nth r rc []) /\
    (forall k, 1 <= k -> k + 1 < rp -> length (nth (r + k) rc []) = t) /\
    (if dbg then length (nth (r + rp - 1) rc []) = t else length (nth (r + rp - 1) rc []) <= t)).
