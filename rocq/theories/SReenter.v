(** Callbacks that call the modem: what happens, told without waiting and without
    an input queue. *)
From Verif Require Export SConverse MReenter.

(** ** As if every call returned the empty list at once *)
Record Seq := mkSeq
  { sq_session : Session; sq_active : bool; sq_ended : bool; sq_log : list (Command * Z * res (list Msg)) }.
Fixpoint perform (st : Seq) (p : Prog) : Seq :=
  match p with
  | Finish => st
  | Raise => mkSeq (dies (sq_session st)) (sq_active st) true (sq_log st)
  | Stop k => perform (mkSeq (sq_session st) false (sq_ended st) (sq_log st)) k
  | Exec c t k =>
      let (s', r) := execute (sq_session st) c t in
      let v := match r with Ok _ => Ok [] | Err e => Err e end in
      perform (mkSeq s' (sq_active st) (sq_ended st) (sq_log st ++ [(c, t, v)])) (k v)
  end.
Definition message (h : Handlers) (st : Seq) (tx : Z * Msg) : Seq :=
  if sq_ended st then st
  else
    let s := sq_session st in
    let st' := mkSeq (with_modem s (dispatch (r_modem (se_reader s)) tx)) (sq_active st) false (sq_log st) in
    match callback_for h s tx with Some p => perform st' p | None => st' end.
(** the loop ends when it is no longer told to read *)
Definition next_round (st : Seq) : Seq :=
  if sq_active st then st else mkSeq (sq_session st) false true (sq_log st).
Definition one_byte (lib : bool) (h : Handlers) (st : Seq) (b : Z) : Seq :=
  if sq_ended st then st
  else
    let s := sq_session st in
    let (p, r) := sparse lib (r_parser (se_reader s)) [b] in
    match r with
    | Ok res =>
        next_round (fold_left (message h) (pr_msgs res)
          (mkSeq (with_reader s (mkReader p (r_modem (se_reader s)) (r_alive (se_reader s)))) (sq_active st) false (sq_log st)))
    | Err _ => mkSeq (with_reader s (mkReader p (r_modem (se_reader s)) false)) (sq_active st) true (sq_log st)
    end.
Definition in_sequence (lib : bool) (h : Handlers) (s : Session) (bytes : list Z) : Seq :=
  fold_left (one_byte lib h) bytes (mkSeq s true false []).

(** ** Executions *)
Definition came (ls : list RLabel) : list Z := flat_map (fun l => match l with RArrive b => [b] | _ => [] end) ls.
Definition timeouts (ls : list RLabel) : nat := length (filter (fun l => match l with RTimeout => true | _ => false end) ls).
(** nothing half done: the thread waits for a byte or has ended *)
Definition rests (w : RWorld) : Prop := rw_at w = InRead \/ rw_at w = Ended.
(** the calls that had to wait: accepted, not asynchronous *)
Definition waited (skip : bool) (l : list (Command * Z * res (list Msg))) : nat :=
  length (filter (fun x => match x with (_, t, Ok _) => negb skip && negb (t =? 0) | _ => false end) l).

(** ** Bytes sent by the calls of callbacks, one frame per accepted command *)
Fixpoint outgoing (p : SParser) (l : list (Command * Z * res (list Msg))) : list Z :=
  match l with
  | [] => []
  | (c, _, Ok _) :: r =>
      let (p', f) := build_serial_frame p (command_ser c) in
      match f with Ok bytes => bytes | Err _ => [] end ++ outgoing p' r
  | (_, _, Err _) :: r => outgoing p r
  end.

(** ** Callbacks that use [execute_command_async] only (or a timeout of at most 0)
    and neither raise nor stop the reader *)
Inductive asynchronous : Prog -> Prop :=
| asynchronous_finish : asynchronous Finish
| asynchronous_exec c t k : t <= 0 -> (forall v, asynchronous (k v)) -> asynchronous (Exec c t k).
Definition asynchronous_handlers (h : Handlers) : Prop :=
  (forall s x, asynchronous (h_cb h s x)) /\ (forall s x, asynchronous (h_rbcb h s x)).
(** nothing is being waited for *)
Definition not_collecting (s : Session) : Prop := m_tag (r_modem (se_reader s)) = None.
Definition has_list (s : Session) : Prop := (m_resp (r_modem (se_reader s)) < length (m_heap (r_modem (se_reader s))))%nat.
