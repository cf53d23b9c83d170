(** Specification for repeated calls of connect() on a line that damages frames. *)
From Verif Require Export SCounted.
From Verif Require Import SConnect MConnect.
(* one call: the tag drawn at random, the frames that arrive until the call ends, and how the reads cut them *)
Record Attempt := mkAttempt { at_tag : Z; at_line : list Arrival; at_chunks : list (list Z) }.
(** a call of [connect] from beginning to end *)
Definition connect_once (lib : bool) (s : Session) (a : Attempt) : Session * Progress :=
  let (s1, p) := connect_begin (at_tag a) true s in
  match p with
  | Waiting => connect_end (devices lib s1 (map DBytes (at_chunks a)))
  | _ => (s1, p)
  end.
Fixpoint connect_many (lib : bool) (s : Session) (l : list Attempt) : Session * list Progress :=
  match l with
  | [] => (s, [])
  | a :: r => let (s1, p) := connect_once lib s a in let (s2, ps) := connect_many lib s1 r in (s2, p :: ps)
  end.
Definition try_ok (a : Attempt) : Prop :=
  0 <= at_tag a <= 255 /\ Forall (arrival_ok false) (at_line a) /\ concat (at_chunks a) = arriving (at_line a).
(** no good frame of the attempt ends the execution of the request *)
Definition unanswered (a : Attempt) : bool :=
  negb (existsb (fun tx => is_reply (Some (at_tag a)) tx && ends_execution (snd tx)) (delivered (accepted (at_line a)))).
