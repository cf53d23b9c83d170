(** C79: objects made with default arguments, or from the same objects, share
    their parts. *)
From Coq Require Import Lia.
From Verif Require Import MBase MCt MSp MOperands MAlp SShare LShare LShare2 LShare6 LShare7.

(** A call of the library changes no object that exists already, other than the
    command it is called on. *)
Theorem C79_others_untouched : forall h k, (length h <= length (call h k))%nat
  /\ forall r, (r < length h)%nat -> target k <> Some r -> nth_error (call h k) r = nth_error h r.
Proof. exact call_keeps. Qed.
Print Assumptions C79_others_untouched.

(** A command depends on exactly the objects it reaches: whatever a program does
    to other objects leaves it as it is... *)
Theorem C79_unaffected : forall h l c v, the_command h c = Some v ->
  (forall k n, In k l -> target k = Some n -> ~ reaches h c n) ->
  the_command (program h l) c = Some v /\ forall n, reaches (program h l) c n <-> reaches h c n.
Proof. exact command_unaffected. Qed.
Print Assumptions C79_unaffected.
(** ...and a change of an object without parts is seen in a command if and only
    if the command reaches it. *)
Theorem C79_visible : forall h c v n o o', the_command h c = Some v -> nth_error h n = Some o -> atomic o = true ->
  class_of o' = class_of o -> o' <> o ->
  exists v', the_command (put_at h n o') c = Some v' /\ (v' = v <-> ~ reaches h c n).
Proof. exact command_visible. Qed.
Print Assumptions C79_visible.

(** The default configuration exists in every program, and is the documented one
    as long as nobody changes its parts. *)
Theorem C79_default : forall h, history h -> exists c, default_conf h c.
Proof. exact defaults. Qed.
Print Assumptions C79_default.
Theorem C79_default_kept : forall l,
  (forall k, In k l -> target k <> Some DEFAULT_QOS /\ target k <> Some DEFAULT_DORM_TO /\ target k <> Some DEFAULT_ADDRESSEE) ->
  default_conf (program loaded l) conf_default.
Proof. exact defaults_kept. Qed.
Print Assumptions C79_default_kept.

(** The factories make the commands of the typed model (C21) from the current
    values of their arguments and defaults. *)
Theorem C79_write : forall h rnd id data bs off t conf cv, the_bytes h data = Some bs -> conf_arg h t conf cv ->
  same_outcome h (make_write h rnd id data off t conf) (create_write rnd id bs off t cv).
Proof. exact write_outcome. Qed.
Print Assumptions C79_write.
Theorem C79_return : forall h rnd id data bs off tag t conf cv, the_bytes h data = Some bs -> conf_arg h t conf cv ->
  same_outcome h (make_return h rnd id data off tag t conf) (create_return rnd id bs off tag t cv).
Proof. exact return_outcome. Qed.
Print Assumptions C79_return.
Theorem C79_read : forall h rnd id len off t conf cv, conf_arg h t conf cv ->
  same_outcome h (make_read h rnd id len off t conf) (create_read rnd id len off t cv).
Proof. exact read_outcome. Qed.
Print Assumptions C79_read.

(** What a new command shares with the rest of the program: the caller's list,
    the caller's configuration with its parts, or the three default parts. *)
Theorem C79_shared_by_write : forall h rnd id data bs off t conf cv h' c, the_bytes h data = Some bs -> conf_arg h t conf cv ->
  make_write h rnd id data off t conf = Ok (h', c) \/ (exists tag, make_return h rnd id data off tag t conf = Ok (h', c)) ->
  forall n, (n < length h)%nat -> (reaches h' c n <-> n = data \/ conf_parts h t conf n).
Proof. exact write_parts. Qed.
Print Assumptions C79_shared_by_write.
Theorem C79_shared_by_read : forall h rnd id len off t conf cv h' c, conf_arg h t conf cv ->
  make_read h rnd id len off t conf = Ok (h', c) ->
  forall n, (n < length h)%nat -> (reaches h' c n <-> conf_parts h t conf n).
Proof. exact read_parts. Qed.
Print Assumptions C79_shared_by_read.

(** At any later time the command is what the factory would make of the values
    its arguments and the defaults have then, except that the length, and the
    system file a response was recognised as, are those of the data at the time
    of the call. *)
Theorem C79_write_later : forall h rnd id data bs off t conf h' c l bs' cv, the_bytes h data = Some bs ->
  make_write h rnd id data off t conf = Ok (h', c) -> leaves_new h h' l ->
  the_bytes (program h' l) data = Some bs' -> conf_arg (program h' l) t conf cv ->
  exists cmd, factory rnd None t cv (Ok (WriteFileData (mkData (mkOffset id (mkLength off)) (mkLength (zlen bs)) bs'))) = Ok cmd
    /\ the_command (program h' l) c = Some cmd.
Proof. exact write_now. Qed.
Print Assumptions C79_write_later.
Theorem C79_return_later : forall h rnd id data bs off tag t conf h' c l bs' cv, the_bytes h data = Some bs ->
  make_return h rnd id data off tag t conf = Ok (h', c) -> leaves_new h h' l ->
  the_bytes (program h' l) data = Some bs' -> conf_arg (program h' l) t conf cv ->
  exists cmd, factory rnd tag t cv (Ok (ReturnFileData (mkData (mkOffset id (mkLength off)) (mkLength (zlen bs)) bs')
      (try_parse_system_file (mkData (mkOffset id (mkLength off)) (mkLength (zlen bs)) bs)))) = Ok cmd
    /\ the_command (program h' l) c = Some cmd.
Proof. exact return_now. Qed.
Print Assumptions C79_return_later.
Theorem C79_read_later : forall h rnd id len off t conf h' c l cv,
  make_read h rnd id len off t conf = Ok (h', c) -> leaves_new h h' l -> conf_arg (program h' l) t conf cv ->
  exists cmd, factory rnd None t cv (Ok (ReadFileData (mkDataRequest (mkOffset id (mkLength off)) (mkLength len)))) = Ok cmd
    /\ the_command (program h' l) c = Some cmd.
Proof. exact read_now. Qed.
Print Assumptions C79_read_later.

(** On the wire: after a change of the list the new bytes follow the old length.
    A command made with an empty list sends no operand whatever is put in the
    list later. *)
Theorem C79_stale_length : forall h rnd id data bs off t conf h' c l bs' cv cmd, the_bytes h data = Some bs ->
  make_write h rnd id data off t conf = Ok (h', c) -> leaves_new h h' l ->
  the_bytes (program h' l) data = Some bs' -> Forall is_byte bs' -> conf_arg (program h' l) t conf cv ->
  create_write rnd id bs off t cv = Ok cmd ->
  exists cmd', the_command (program h' l) c = Some cmd' /\
    (bs = [] -> command_ser cmd' = command_ser cmd) /\
    (bs <> [] -> match command_ser cmd with
                 | Ok w => exists p, w = p ++ bs /\ command_ser cmd' = Ok (p ++ bs')
                 | Err e => command_ser cmd' = Err e
                 end).
Proof. exact write_wire. Qed.
Print Assumptions C79_stale_length.

(** [Configuration(…)] and [Data(…)] by themselves. *)
Theorem C79_configuration : forall h q d a h' r l, new_conf h q d a = Ok (h', r) -> (forall k, In k l -> target k <> Some r) ->
  forall vq vd va, let g := program h' l in
  the_qos g (given q DEFAULT_QOS) = Some vq -> the_ct g (given d DEFAULT_DORM_TO) = Some vd -> the_addr g (given a DEFAULT_ADDRESSEE) = Some va ->
  the_conf g r = Some (CfgD7 (mkConf vq vd va)).
Proof. exact conf_later. Qed.
Print Assumptions C79_configuration.
Theorem C79_data : forall h d o h' r l bs, new_data h d o = Ok (h', r) -> the_bytes h (given d DEFAULT_DATA) = Some bs ->
  (forall k, In k l -> target k <> Some r /\ target k <> Some (length h)) ->
  forall vo vb, let g := program h' l in
  the_off g (given o DEFAULT_DATA_OFFSET) = Some vo -> the_bytes g (given d DEFAULT_DATA) = Some vb ->
  the_data g r = Some (mkData vo (mkLength (zlen bs)) vb).
Proof. exact data_made_later. Qed.
Print Assumptions C79_data.
(** [DataRequest(…)] and [Offset(…)]: the default offset of a request is not the
    one of [Data(…)], but both have the default length of [Offset(…)]. *)
Theorem C79_request : forall h v o h' r l, new_request h v o = Ok (h', r) ->
  (forall k, In k l -> target k <> Some r /\ target k <> Some (length h)) ->
  forall vo, let g := program h' l in
  the_off g (given o DEFAULT_REQ_OFFSET) = Some vo -> the_req g r = Some (mkDataRequest vo (mkLength v)).
Proof. exact request_made_later. Qed.
Print Assumptions C79_request.
Theorem C79_offset : forall h id o h' r l, new_offset h id o = Ok (h', r) -> (forall k, In k l -> target k <> Some r) ->
  forall vl, let g := program h' l in
  the_len g (given o DEFAULT_LENGTH) = Some vl -> the_off g r = Some (mkOffset id vl).
Proof. exact offset_made_later. Qed.
Print Assumptions C79_offset.
(** A configuration read from the wire shares nothing. *)
Theorem C79_parsed : forall h c, let (h', r) := parsed_conf h c in
  the_conf h' r = Some (CfgD7 c) /\ forall n, reaches h' r n -> (length h <= n)%nat.
Proof. exact parsed_apart. Qed.
Print Assumptions C79_parsed.

(** Independence refuted: two commands made one after the other without a
    configuration; asking for another response mode in the first changes what
    the second sends, and what a third command made later sends. *)
Theorem C79_independent_refuted : exists h1 c1 h2 c2 h3 c3,
  make_read (program loaded []) 1 64 4 0 IF_D7ASP None = Ok (h1, c1) /\
  make_read h1 2 65 4 0 IF_D7ASP None = Ok (h2, c2) /\ c1 <> c2 /\
  let g := call h2 (KAssign DEFAULT_QOS (OQoS asks_any)) in
  option_map command_ser (the_command h2 c2) = Some (Ok [180; 2; 50; 215; 0; 0; 16; 0; 1; 65; 0; 4]) /\
  option_map command_ser (the_command g c2) = Some (Ok [180; 2; 50; 215; 2; 0; 16; 0; 1; 65; 0; 4]) /\
  make_read g 3 66 4 0 IF_D7ASP None = Ok (h3, c3) /\
  option_map command_ser (the_command h3 c3) = Some (Ok [180; 3; 50; 215; 2; 0; 16; 0; 1; 66; 0; 4]).
Proof.
  let x := eval vm_compute in (made_store loaded (make_read loaded 1 64 4 0 IF_D7ASP None)) in exists x, 7%nat;
  let y := eval vm_compute in (made_store x (make_read x 2 65 4 0 IF_D7ASP None)) in exists y, 16%nat;
  let z := eval vm_compute in (let g := call y (KAssign DEFAULT_QOS (OQoS asks_any)) in made_store g (make_read g 3 66 4 0 IF_D7ASP None)) in exists z, 25%nat.
  split; [vm_compute; reflexivity|]. split; [vm_compute; reflexivity|]. split; [discriminate|]. cbv zeta.
  split; [vm_compute; reflexivity|]. split; [vm_compute; reflexivity|]. split; [vm_compute; reflexivity|vm_compute; reflexivity].
Qed.
Print Assumptions C79_independent_refuted.

(** A list that grows after the call: the appended bytes arrive as an action of
    their own, here a read of file 65. *)
Example C79_case_stale_length :
  let h := program loaded [KAtom (OBytes [1; 2])] in
  exists h' c cmd', the_bytes h 7%nat = Some [1; 2] /\ make_write h 9 64 7%nat 0 IF_HOST None = Ok (h', c) /\
  let g := program h' [KAssign 7%nat (OBytes [1; 2; 1; 65; 0; 4])] in
  leaves_new h h' [KAssign 7%nat (OBytes [1; 2; 1; 65; 0; 4])] /\
  the_command g c = Some cmd' /\ command_ser cmd' = Ok [180; 9; 4; 64; 0; 2; 1; 2; 1; 65; 0; 4] /\
  exists d s, alp_parse 12 (stream_of [180; 9; 4; 64; 0; 2; 1; 2; 1; 65; 0; 4]) = Ok (d, s) /\
    map (fun a => op_code (a_op a)) (c_actions d) = [4; 1].
Proof.
  cbv zeta. eexists _, _, _. split; [reflexivity|]. split; [reflexivity|]. split.
  { intros k r [<-|[]] E. injection E as <-. cbn. lia. }
  split; [vm_compute; reflexivity|]. split; [vm_compute; reflexivity|]. eexists _, _. split; vm_compute; reflexivity.
Qed.
(** [Data()] twice, with an append to the list of the first in between. *)
Example C79_case_default_data :
  exists h1 r1 h2 r2, new_data loaded None None = Ok (h1, r1) /\
  let g := call h1 (KAssign DEFAULT_DATA (OBytes [5])) in
  option_map data_ser (the_data h1 r1) = Some (Ok [0; 0; 0]) /\ option_map data_ser (the_data g r1) = Some (Ok [0; 0; 0; 5]) /\
  new_data g None None = Ok (h2, r2) /\ option_map data_ser (the_data h2 r2) = Some (Ok [0; 0; 1; 5]).
Proof. eexists _, _, _, _. split; [reflexivity|]. cbv zeta. repeat (split; [vm_compute; reflexivity|]). vm_compute. reflexivity. Qed.
(** Two commands with their own lists and configurations: a change of the first
    one's configuration leaves the second alone. *)
Example C79_case_apart :
  let h := program loaded [KAtom (OQoS qos_default); KConf (Some 7%nat) None None; KAtom (OQoS qos_default); KConf (Some 9%nat) None None] in
  exists h1 c1 h2 c2 v2, make_read h 1 64 4 0 IF_D7ASP (Some 8%nat) = Ok (h1, c1) /\ make_read h1 2 65 4 0 IF_D7ASP (Some 10%nat) = Ok (h2, c2) /\
  the_command h2 c2 = Some v2 /\ the_command (call h2 (KAssign 7%nat (OQoS asks_any))) c2 = Some v2 /\
  the_command (call h2 (KAssign 7%nat (OQoS asks_any))) c1 <> the_command h2 c1.
Proof.
  cbv zeta.
  let h := eval vm_compute in (program loaded [KAtom (OQoS qos_default); KConf (Some 7%nat) None None; KAtom (OQoS qos_default); KConf (Some 9%nat) None None]) in
  let x := eval vm_compute in (made_store h (make_read h 1 64 4 0 IF_D7ASP (Some 8%nat))) in exists x, 11%nat;
  let y := eval vm_compute in (made_store x (make_read x 2 65 4 0 IF_D7ASP (Some 10%nat))) in exists y, 19%nat.
  eexists. split; [vm_compute; reflexivity|]. split; [vm_compute; reflexivity|]. split; [vm_compute; reflexivity|].
  split; [vm_compute; reflexivity|]. vm_compute. discriminate.
Qed.
(** A new request without an offset, after the default offset of requests was
    given another file: it asks for that file; one of [Data()] does not. *)
Example C79_case_default_offset :
  exists h1 r1, new_request loaded 4 None = Ok (h1, r1) /\
  let g := call h1 (KAssign DEFAULT_REQ_OFFSET (OOff 64 DEFAULT_LENGTH)) in
  option_map dr_ser (the_req h1 r1) = Some (Ok [0; 0; 4]) /\ option_map dr_ser (the_req g r1) = Some (Ok [64; 0; 4]) /\
  the_off g DEFAULT_DATA_OFFSET = Some (mkOffset 0 (mkLength 0)).
Proof. do 2 eexists. split; [vm_compute; reflexivity|]. vm_compute. repeat split. Qed.
