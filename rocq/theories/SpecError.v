(** * Error of one more rounded operation *)

From Coq Require Import Reals.
Local Open Scope R_scope.

(** If a result is within [E] of [x] before it is rounded with relative error
    [u] and absolute error [eta], it is within [slack u eta x E] afterwards. *)
Definition slack (u eta x E : R) : R := E + u * (Rabs x + E) + eta.
