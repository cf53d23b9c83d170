(** Several application threads using one [Modem]: the sending half of
    [execute_command], modem.py:145-163, and [build_serial_frame],
    parser.py:63-74.  One step is one access to a shared attribute, one lock
    operation, or one byte written to the device. *)
From Verif Require Import MBase MCrc MSerial.

(** where a thread stands *)
Inductive TPC :=
| TIdle                             (* between two calls *)
| TBuild (alp : list Z)             (* parser.py:66: about to read [up_counter] *)
| TLoad (alp f : list Z)            (* parser.py:71: about to read it again *)
| TStore (alp f : list Z) (v : Z)   (* about to store [v + 1] *)
| TCheck (alp f : list Z)           (* parser.py:72 *)
| TReset (alp f : list Z)           (* parser.py:73: about to store 0 *)
| TLock (alp f : list Z)            (* modem.py:158: waiting for the lock *)
| TWrite (alp rest : list Z).       (* modem.py:159: holding it, [rest] unwritten *)

(** a thread: the commands it will still send (the results of
    [bytearray(command)]), where it is, and what became of earlier ones *)
Record Thread := mkThread
  { t_todo : list (res (list Z)); t_pc : TPC; t_log : list (res (list Z) * option exn) }.
(** the shared objects: the parser's counter, the lock, the device *)
Record Shared := mkShared
  { sh_counter : Z; sh_lock : option nat; sh_wire : list Z; sh_threads : list Thread }.

Definition set_nth {A} (n : nat) (x : A) (l : list A) : list A := firstn n l ++ x :: skipn (S n) l.

(** the frame as built from the value [c] of the counter, parser.py:64-70 *)
Definition built (c : Z) (alp : list Z) : res (list Z) :=
  snd (build_serial_frame (mkSP [] true c 0 0) (Ok alp)).

(** thread [i] performs its next step; [None] if it cannot (nothing to do, or
    the lock is taken) *)
Definition thread_step (s : Shared) (i : nat) : option Shared :=
  match nth_error (sh_threads s) i with
  | None => None
  | Some t =>
      let put c l w t' := Some (mkShared c l w (set_nth i t' (sh_threads s))) in
      let stay pc := mkThread (t_todo t) pc (t_log t) in
      let done ser e := mkThread (t_todo t) TIdle (t_log t ++ [(ser, e)]) in
      let c := sh_counter s in let lk := sh_lock s in let w := sh_wire s in
      match t_pc t with
      | TIdle =>
          match t_todo t with
          | [] => None
          | Err e :: r => put c lk w (mkThread r TIdle (t_log t ++ [(Err e, Some e)]))
          | Ok alp :: r => put c lk w (mkThread r (TBuild alp) (t_log t))
          end
      | TBuild alp =>
          match built c alp with
          | Ok f => put c lk w (stay (TLoad alp f))
          | Err e => put c lk w (done (Ok alp) (Some e))
          end
      | TLoad alp f => put c lk w (stay (TStore alp f c))
      | TStore alp f v => put (v + 1) lk w (stay (TCheck alp f))
      | TCheck alp f => put c lk w (stay (if 255 <? c then TReset alp f else TLock alp f))
      | TReset alp f => put 0 lk w (stay (TLock alp f))
      | TLock alp f => match lk with
                       | None => put c (Some i) w (stay (TWrite alp f))
                       | Some _ => None
                       end
      | TWrite alp (b :: r) => put c lk (w ++ [b]) (stay (TWrite alp r))
      | TWrite alp [] => put c None w (done (Ok alp) None)
      end
  end.
Fixpoint threads_run (s : Shared) (sched : list nat) : option Shared :=
  match sched with
  | [] => Some s
  | i :: r => match thread_step s i with Some s' => threads_run s' r | None => None end
  end.
(** threads with their programs, nothing sent yet *)
Definition threads_start (c : Z) (programs : list (list (res (list Z)))) : Shared :=
  mkShared c None [] (map (fun p => mkThread p TIdle []) programs).
