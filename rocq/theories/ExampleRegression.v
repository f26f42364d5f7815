(** * Model of the example programs

    /repo/example/regression/cumulative.cpp and /repo/example/regression/window.cpp,
    which differ in the filter only (line 17).  A file is given by the records
    [x separator y] it contains; malformed records and the text of the output
    are not modelled. *)

From Coq Require Import List.
From Verif Require Import Arith Cumulative Window.
Import ListNotations.

Section Example.
(** The filter of line 17 and its members push(), slope() and at(0) used in
    lines 27-28. *)
Context {V St : Type} (push : St -> V * V -> St) (slope : St -> V) (at0 : St -> V).

(** std::ifstream file (line 23): the records not yet read and the failbit. *)
Record ifile := IFile { if_rest : list (V * V); if_fail : bool }.

(** Line 23; [None] is a file that cannot be opened, which sets the failbit. *)
Definition if_open (content : option (list (V * V))) : ifile :=
  match content with
  | Some l => IFile l false
  | None => IFile [] true
  end.

(** Line 26, [file >> x >> separator >> y]: at the end of the file the first
    extraction sets the failbit and x and y keep their values. *)
Definition if_read (f : ifile) (xy : option (V * V)) : ifile * option (V * V) :=
  match if_rest f with
  | p :: l => (IFile l false, Some p)
  | [] => (IFile [] true, xy)
  end.

(** What the loop prints: the lines x, y, slope, at(0).  [Uninitialised] is a
    read of the variables x and y (lines 19-20) before they have a value. *)
Inductive output :=
| Lines (l : list (V * V * V * V))
| Uninitialised
| Endless.

(** One more line in front. *)
Definition out_cons (p : V * V * V * V) (o : output) : output :=
  match o with
  | Lines l => Lines (p :: l)
  | Uninitialised => Uninitialised
  | Endless => Endless
  end.

(** Lines 24-29: the condition is tested before the extraction.  [xy] is x and y,
    [None] while uninitialised; [Endless]: not finished after [fuel] rounds. *)
Fixpoint loop (fuel : nat) (f : ifile) (xy : option (V * V)) (s : St) : output :=
  match fuel with
  | O => Endless
  | S fuel =>
    if if_fail f then Lines []
    else
      let '(f, xy) := if_read f xy in
      match xy with
      | None => Uninitialised
      | Some p =>
        let s := push s p in
        out_cons (fst p, snd p, slope s, at0 s) (loop fuel f xy s)
      end
  end.

(** Lines 9-31: exit status and output; [argc] counts the program name. *)
Definition example_main (fuel argc : nat) (content : option (list (V * V))) (s : St) : nat * output :=
  if Nat.eqb argc 2
  then (0, loop fuel (if_open content) None s)
  else (1, Lines []).
End Example.

(** example/regression/cumulative.cpp *)
Definition example_cumulative (F : num) (fuel argc : nat) (content : option (list (F * F))) :=
  example_main (creg_push F) (creg_slope F) (fun s => creg_at F s n0) fuel argc content (creg_init F).

(** example/regression/window.cpp: window::regression<double, 64> *)
Definition example_window (F : num) (fuel argc : nat) (content : option (list (F * F))) :=
  example_main (wreg_push F 64) (wreg_slope F) (fun s => wreg_at F s n0) fuel argc content (wreg_init F).
