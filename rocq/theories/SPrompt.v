(** When a message is delivered: vocabulary for C98. *)
From Verif Require Export SConverse SCallback.
Open Scope list_scope.
Open Scope Z_scope.

(** [rest] is the beginning of the first of the frames of [l], not all of it *)
Definition unfinished (l : list Sent) (rest : list Z) : Prop :=
  match l with
  | [] => rest = []
  | x :: _ => exists missing, missing <> [] /\ sent_frame x = rest ++ missing
  end.
(** the messages [l] are on their way; of their bytes, [bytes] have arrived:
    exactly the frames of [l1] are complete, [rest] belongs to the next one *)
Definition arrived (l : list Sent) (bytes : list Z) (l1 : list Sent) (rest : list Z) : Prop :=
  exists l2, l = l1 ++ l2 /\ bytes = wire l1 ++ rest /\ unfinished l2 rest.
(** [execute_command] stops waiting *)
Definition answered (s : Session) : bool := m_completed (r_modem (se_reader s)).
