(** Specification for C88 and C89: what an error report shows, and how much the
    receiver does for what it receives. *)
From Verif Require Export SSerial SHexTool MHexTool MReport.
Open Scope list_scope.
Open Scope Z_scope.

(** messages and errors of a list of rounds, in order *)
Definition got (r : Round) : list (Z * Msg) := match ro_out r with Got t m _ => [(t, m)] | _ => [] end.
Definition bad (r : Round) : list PErr := match ro_out r with Bad e n => [mkPErr e n] | _ => [] end.
Definition messages (rs : list Round) : list (Z * Msg) := flat_map got rs.
Definition errors (rs : list Round) : list PErr := flat_map bad rs.
Definition leaves (e : exn) (rs : list Round) : Prop := exists r, In r rs /\ ro_out r = Leaves e.

(** the bytes a round takes from the front of its buffer *)
Definition taken (r : Round) : nat :=
  match ro_out r with Got _ _ n => n | Bad _ n => Z.to_nat n | Waits | Leaves _ => 0%nat end.
Definition piece (r : Round) : list Z := firstn (taken r) (ro_buffer r).

(** [r] reports that [dropped] was given up in front of [after]: up to the next
    0xC0, and the text shows both *)
Definition reports_drop (r : Report) (dropped after : list Z) : Prop :=
  rp_skipped r = zlen dropped
  /\ (exists first clean, dropped = first :: clean /\ ~ In 192 clean)
  /\ (after = [] \/ hd 0 after = 192)
  /\ written (dropped ++ after) (rp_text r).

(** successive calls of [parse], whether or not they raise *)
Fixpoint all_rounds (lib : bool) (p : SParser) (chunks : list (list Z)) : list Round :=
  match chunks with
  | [] => []
  | c :: cs => let (q, rs) := parse_rounds lib p c in rs ++ all_rounds lib q cs
  end.
(** what is done in them: bytes copied to make bit streams, bytes the CRC is
    computed of, characters of error texts *)
Definition total (f : Round -> Z) (rs : list Round) : Z := fold_right (fun r a => f r + a) 0 rs.
Definition copied (rs : list Round) : Z := total (fun r => zlen (ro_buffer r)) rs.
Definition hashed (rs : list Round) : Z := total (fun r => match ro_crc r with Some l => zlen l | None => 0 end) rs.
Definition characters (rs : list Round) : Z := total (fun r => fold_right (fun e a => zlen (rp_text e) + a) 0 (report r)) rs.
