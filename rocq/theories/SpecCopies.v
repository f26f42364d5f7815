(** * Specification of programs over several objects: value semantics

    [Copy] and [Assign] give the target the history of the source; every other
    operation concerns one object. *)

From Coq Require Import List.
From Verif Require Import Arith History InterimPsquare.
Import ListNotations.

Section Copies.
Context {F : num}.

(** The history of every existing object. *)
Definition histories : Type := nat -> option (list (op F)).
Definition hset (l : histories) (o : nat) (v : option (list (op F))) : histories :=
  fun k => if Nat.eqb k o then v else l k.

Definition vstep (l : histories) (c : cmd F) : option histories :=
  match c with
  | New o => match l o with None => Some (hset l o (Some [])) | _ => None end
  | Copy d s => match l d, l s with
                | None, Some q => Some (hset l d (Some q)) | _, _ => None end
  | Assign d s => match l d, l s with
                  | Some _, Some q => Some (hset l d (Some q)) | _, _ => None end
  | Destroy o => match l o with Some _ => Some (hset l o None) | None => None end
  | PushTo o x => match l o with
                  | Some ops => Some (hset l o (Some (ops ++ [Push x]))) | None => None end
  | ClearOf o => match l o with
                 | Some ops => Some (hset l o (Some (ops ++ [Clear]))) | None => None end
  end.

(** [None]: the program uses an object that does not exist. *)
Definition vexec (cs : list (cmd F)) : option histories :=
  fold_left (fun r c => match r with Some h => vstep h c | None => None end) cs
            (Some (fun _ => None)).

(** Every copy or assignment is followed at once by clear() of the target. *)
Inductive cleared_copies : list (cmd F) -> Prop :=
| cc_nil : cleared_copies []
| cc_copy d s cs : cleared_copies cs -> cleared_copies (Copy d s :: ClearOf d :: cs)
| cc_assign d s cs : cleared_copies cs -> cleared_copies (Assign d s :: ClearOf d :: cs)
| cc_new o cs : cleared_copies cs -> cleared_copies (New o :: cs)
| cc_destroy o cs : cleared_copies cs -> cleared_copies (Destroy o :: cs)
| cc_push o x cs : cleared_copies cs -> cleared_copies (PushTo o x :: cs)
| cc_clear o cs : cleared_copies cs -> cleared_copies (ClearOf o :: cs).

End Copies.
