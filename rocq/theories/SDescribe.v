(** A listing: the texts one after the other, separated by a comma and a blank. *)
From Coq Require Import String.
From Verif Require Import MBase MSysFiles MAlp MAsDict MPrint MDescribe SPrint.
Open Scope string_scope.
Open Scope Z_scope.

Fixpoint listing (l : list (list Z)) : list Z :=
  match l with
  | [] => []
  | [x] => x
  | x :: r => (x ++ [44; 32] ++ listing r)%list
  end.
(** not a comma, not a blank *)
Definition solid (c : Z) : Prop := c <> 44 /\ c <> 32.
Definition begins_solid (l : list Z) : Prop := exists c r, l = c :: r /\ solid c.
Definition ends_solid (l : list Z) : Prop := exists r c, l = (r ++ [c])%list /\ solid c.
(** What is known about the way Python writes numbers, booleans, members of
    enumerations, lists of numbers, [None], dicts and objects without a text of
    their own: the writing is not empty and has no comma or blank at either end. *)
Definition atomic (s : Seg) : Prop := match s with Lit _ | Chars _ | Sub _ => False | _ => True end.
Definition tidy (leaf : Seg -> list Z) : Prop := forall s, atomic s -> begins_solid (leaf s) /\ ends_solid (leaf s).
(** The texts of the actions *)
Definition action_texts (leaf : Seg -> list Z) (c : Command) : list (list Z) :=
  map (fun a => characters_of leaf (text_or_nothing (o_action a))) (c_actions c).
(** The last action brings a firmware version whose git hash, as received, ends
    in a comma or blank. *)
Definition loose_end (c : Command) : Prop :=
  exists before a f git last, c_actions c = (before ++ [a])%list /\ recognised a = Some (F_Fw f)
    /\ fw_git f = (git ++ [last])%list /\ (last = 44 \/ last = 32).
(** what is left of a text when the commas and blanks at its end are removed *)
Definition trimmed (l m : list Z) : Prop :=
  (m = [] \/ ends_solid m) /\ exists dropped, l = (m ++ dropped)%list /\ Forall (fun c => c = 44 \/ c = 32) dropped.
(** A writing of the values, for examples: decimal numbers of one digit, "?" for the rest *)
Definition sample_leaf (s : Seg) : list Z :=
  match s with Num z => [48 + z mod 10] | _ => [63] end.
