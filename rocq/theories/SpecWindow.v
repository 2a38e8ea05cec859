(** Vocabulary for C62: window sizes. *)
Require Import ZArith.
Local Open Scope Z_scope.

(** [window_allowed built w]: a program may be compiled for window size [w] with the table file that a generator
    compiled for window size [built] wrote.  The documentation (src/ecmult.h, src/precompute_ecmult.c) allows sizes
    from 2 to 24, and the file serves all sizes up to 15 and up to the size it was made for.  The file that
    is checked in is one for [built] at most 15. *)
Definition window_allowed (built w : Z) : Prop := 2 <= built <= 24 /\ 2 <= w <= 24 /\ (w <= 15 \/ w <= built).
