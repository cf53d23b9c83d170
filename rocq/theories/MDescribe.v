(** [Command.describe_actions], alp/command.py:329-334. *)
From Coq Require Import Ascii String.
From Verif Require Import MBase MAlp MAsDict MPrint.
Open Scope string_scope.
Open Scope Z_scope.

(** ** The characters of a text.  How a number, a boolean, a list or a dict is
    written is Python's business (see MPrint): [leaf] stands for it. *)
Definition codes (s : string) : list Z := map (fun c => Z.of_nat (nat_of_ascii c)) (list_ascii_of_string s).
Fixpoint written (leaf : Seg -> list Z) (s : Seg) : list Z :=
  match s with
  | Lit l => codes l
  | Chars l => l
  | Sub t => flat_map (written leaf) t
  | _ => leaf s
  end.
Definition characters_of (leaf : Seg -> list Z) (t : Text) : list Z := flat_map (written leaf) t.

(** [s.strip(", ")]: Python removes every comma and every blank at both ends *)
Definition stripped (c : Z) : bool := (c =? 44) || (c =? 32).
Fixpoint lstrip_codes (l : list Z) : list Z :=
  match l with [] => [] | c :: r => if stripped c then lstrip_codes r else l end.
Definition strip_codes (l : list Z) : list Z := rev (lstrip_codes (rev (lstrip_codes l))).

(** the loop, alp/command.py:331-332 *)
Fixpoint descriptions (leaf : Seg -> list Z) (actions : list Value) (description : list Z) : res (list Z) :=
  match actions with
  | [] => Ok description
  | a :: r =>
      let! t := str a in
      descriptions leaf r (description ++ characters_of leaf t ++ codes ", ")
  end.
(** alp/command.py:329-334 *)
Definition describe_actions (leaf : Seg -> list Z) (c : Command) : res (list Z) :=
  let! d := descriptions leaf (map o_action (c_actions c)) [] in Ok (strip_codes d).
