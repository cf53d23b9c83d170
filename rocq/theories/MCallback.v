(** modem.py:204-244 with callbacks that can raise. *)
From Verif Require Import MBase MAlp MSerial MModem.

(** Does a callback raise when called with [x]?  It may depend on everything
    that happened before, so it is given the modem's state. *)
Record Callbacks := mkCallbacks { cb_raises : Modem -> Msg -> bool; rbcb_raises : Modem -> Msg -> bool }.

(** modem.py:221-234: is a callback called for this message, and does it raise?
    Nothing in the loop or around it catches the exception. *)
Definition dispatch_raises (cbs : Callbacks) (m : Modem) (tx : Z * Msg) : bool :=
  let (t, x) := tx in
  if is_response m t x then false
  else if m_has_cb m && m_connected m && (t <=? 3) then cb_raises cbs m x
  else if t =? 5 then if m_has_rbcb m then rbcb_raises cbs m x else false
  else false.

(** the loop modem.py:220-242; [false]: it was left by an exception, the
    messages behind are not looked at *)
Fixpoint dispatch_all (cbs : Callbacks) (m : Modem) (msgs : list (Z * Msg)) : Modem * bool :=
  match msgs with
  | [] => (m, true)
  | tx :: r => if dispatch_raises cbs m tx then (dispatch m tx, false)
               else dispatch_all cbs (dispatch m tx) r
  end.

(** one round of the loop modem.py:204-242 *)
Definition reader_chunk_cb (lib : bool) (cbs : Callbacks) (r : Reader) (chunk : list Z) : Reader :=
  if r_alive r then
    match chunk with
    | [] => r
    | _ => match sparse lib (r_parser r) chunk with
           | (p, Ok res) => let (m, ok) := dispatch_all cbs (r_modem r) (pr_msgs res) in mkReader p m ok
           | (p, Err _) => mkReader p (r_modem r) false
           end
    end
  else r.
