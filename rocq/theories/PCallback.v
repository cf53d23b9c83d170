(** Callbacks that raise: property C62. *)
From Verif Require Import MBase SCallback LCallback.

(** with callbacks that never raise this is the reader of C44 *)
Theorem C62_benign_callbacks : forall lib cbs chunks,
  (forall m x, cb_raises cbs m x = false) -> (forall m x, rbcb_raises cbs m x = false) ->
  forall r, read_chunks_cb lib cbs r chunks = read_chunks lib r chunks.
Proof. exact callbacks_benign. Qed.
Print Assumptions C62_benign_callbacks.

(** otherwise, up to the first message for which a callback raises everything
    is as if it did not raise; that message ends the thread, in the middle of
    the messages decoded together with it *)
Theorem C62_first_exception : forall lib cbs chunks r,
  read_chunks_cb lib cbs r chunks = read_chunks lib r chunks
  \/ exists before chunk after p res msgs t x rest,
       chunks = before ++ chunk :: after
       /\ read_chunks_cb lib cbs r before = read_chunks lib r before
       /\ r_alive (read_chunks lib r before) = true /\ chunk <> []
       /\ sparse lib (r_parser (read_chunks lib r before)) chunk = (p, Ok res)
       /\ first_raise cbs (r_modem (read_chunks lib r before)) (pr_msgs res) msgs t x rest
       /\ read_chunks_cb lib cbs r chunks
          = mkReader p (handled (r_modem (read_chunks lib r before)) (msgs ++ [(t, x)])) false.
Proof. exact callbacks_run. Qed.
Print Assumptions C62_first_exception.

(** a living thread means that no callback has raised *)
Theorem C62_alive : forall lib cbs chunks r, r_alive (read_chunks_cb lib cbs r chunks) = true ->
  read_chunks_cb lib cbs r chunks = read_chunks lib r chunks.
Proof. exact callbacks_alive. Qed.
Print Assumptions C62_alive.

(** what was delivered is in every place a prefix of what it would be *)
Theorem C62_delivered_prefix : forall lib cbs chunks r p,
  prefix (inbox p (r_modem (read_chunks_cb lib cbs r chunks))) (inbox p (r_modem (read_chunks lib r chunks))).
Proof. exact callbacks_prefix. Qed.
Print Assumptions C62_delivered_prefix.

(** whatever the device sends afterwards is not read *)
Theorem C62_dead_for_good : forall lib cbs chunks r, r_alive (read_chunks_cb lib cbs r chunks) = false ->
  forall more, read_chunks_cb lib cbs r (chunks ++ more) = read_chunks_cb lib cbs r chunks.
Proof. exact callbacks_dead_result. Qed.
Print Assumptions C62_dead_for_good.

(** a callback in the manner of the engineering mode example: sys.exit(0) once
    a completed command arrives; the response behind it is never seen *)
Example C62_case :
  let cbs := mkCallbacks (fun _ x => msg_completed x) (fun _ _ => false) in
  let m := set_connected (new_modem false true false) in
  let r := mkReader (new_parser false) m true in
  let bytes := frame 0 1 [163; 7] ++ frame 1 1 [163; 8] in
  let r' := read_chunks_cb true cbs r [bytes] in
  r_alive r' = false /\ length (inbox PCallback (r_modem r')) = 1%nat
  /\ r_alive (read_chunks true r [bytes]) = true
  /\ length (inbox PCallback (r_modem (read_chunks true r [bytes]))) = 2%nat.
Proof. vm_compute. repeat split. Qed.
