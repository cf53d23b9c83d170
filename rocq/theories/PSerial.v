(** Properties C01-C14, C51, C52: the serial interface. *)
From Verif Require Import SSerial SRecheck LSerialProps LRecheck.

(** C01 *)
Theorem C01_serial_frame_round_trip : forall lib s payloads q,
  is_byte (sp_up s) -> Forall is_payload payloads -> sp_skip q = true -> sp_buf q = [] ->
  exists fs s', sends s (map Ok payloads) fs s' /\
  forall chunks, concat chunks = concat fs -> chunks <> [] ->
  exists q', feeds lib q chunks q' (map (fun a => (1, MRaw a)) payloads) [] /\ sp_buf q' = [].
Proof. exact payload_link. Qed.
Print Assumptions C01_serial_frame_round_trip.
Example C01_case : is_byte (sp_up (new_parser true)) /\ Forall is_payload [[]; [1; 192; 0]; [255]] /\
  exists p f, build_serial_frame (new_parser true) (Ok [1; 192; 0]) = (p, Ok f)
   /\ f = [192; 0; 0; 1; 3; 237; 248; 1; 192; 0].
Proof.
  refine (conj _ (conj _ _)).
  - unfold is_byte; cbn; lia.
  - repeat apply Forall_cons; try apply Forall_nil; (split; [repeat apply Forall_cons; try apply Forall_nil; unfold is_byte; lia | vm_compute; discriminate]).
  - eexists _, _. split; reflexivity.
Qed.

(** C02 *)
Theorem C02_command_round_trip_over_serial : forall lib s commands q,
  is_byte (sp_up s) -> Forall (fun c => command_wf c /\ command_bytes c <= 255) commands ->
  sp_skip q = false -> sp_buf q = [] ->
  exists fs s', sends s (map command_ser commands) fs s' /\
  forall chunks, concat chunks = concat fs -> chunks <> [] ->
  exists q', feeds lib q chunks q' (map (fun c => (1, MCmd (command_received c))) commands) [] /\ sp_buf q' = [].
Proof. exact command_link. Qed.
Print Assumptions C02_command_round_trip_over_serial.
Definition C02_command : Command :=
  mkCommand [mkAction (Regular true false) (ReadFileData (mkDataRequest (mkOffset 64 (mkLength 100)) (mkLength 8)))]
            None true (Some 25) true false None.
Example C02_case : command_wf C02_command /\ command_bytes C02_command <= 255
  /\ command_ser C02_command = Ok [180; 25; 129; 64; 64; 100; 8].
Proof.
  refine (conj _ (conj _ _)); [|vm_compute; discriminate|reflexivity].
  unfold command_wf. cbn [C02_command c_actions c_status c_generate c_tag]. refine (conj _ (conj eq_refl (conj eq_refl _))).
  - constructor; [|constructor]. unfold action_wf, op_wf, dr_wf, off_wf, len_wf, len_max; cbn; lia.
  - intros _. exists 25. split; [reflexivity | lia].
Qed.

(** C03 *)
Theorem C03_chunking_does_not_matter : forall lib p chunks msgs buffer,
  byte_in p -> Forall (Forall is_byte) chunks -> chunks <> [] -> lib = true \/ sp_skip p = true ->
  ((exists p' es, feeds lib p chunks p' msgs es /\ sp_buf p' = buffer)
   <-> (exists q r, sparse lib p (concat chunks) = (q, Ok r) /\ pr_msgs r = msgs /\ sp_buf q = buffer)).
Proof. exact chunk_iff. Qed.
Print Assumptions C03_chunking_does_not_matter.
Theorem C03_chunking_does_not_matter_for_raising : forall lib p chunks,
  byte_in p -> Forall (Forall is_byte) chunks -> chunks <> [] -> lib = true \/ sp_skip p = true ->
  ((exists e, feed_raises lib p chunks e) <-> (exists q e, sparse lib p (concat chunks) = (q, Err e))).
Proof. exact chunk_raises_iff. Qed.
Print Assumptions C03_chunking_does_not_matter_for_raising.
Theorem C03_chunking_without_bool_errors : forall lib p chunks p' msgs errs,
  byte_in p -> Forall (Forall is_byte) chunks -> chunks <> [] ->
  (forall e, In e errs -> pe_exn e <> BoolEof) -> feeds lib p chunks p' msgs errs ->
  exists q r, sparse lib p (concat chunks) = (q, Ok r) /\ pr_msgs r = msgs /\ sp_buf q = sp_buf p'.
Proof. exact chunk_invariant. Qed.
Print Assumptions C03_chunking_without_bool_errors.
(** if reading a bool at the end is not a ReadError, the remaining case fails *)
Theorem C03_chunking_refuted_for_bool_errors : exists p' es q r,
  feeds false (new_parser false) [frame 1 1 [17; 64]; [0; 0; 0; 0; 0; 0; 0; 1; 0; 0; 0; 1]] p' [] es
  /\ sparse false (new_parser false) (frame 1 1 [17; 64] ++ [0; 0; 0; 0; 0; 0; 0; 1; 0; 0; 0; 1]) = (q, Ok r)
  /\ length (pr_msgs r) = 1%nat.
Proof. exact chunk_witness. Qed.
Print Assumptions C03_chunking_refuted_for_bool_errors.
Example C03_case : byte_in (new_parser true) /\ Forall (Forall is_byte) [[7; 192]; [0; 1; 1; 0; 255; 255]; [192]]
  /\ exists q r, sparse true (new_parser true) [7; 192; 0; 1; 1; 0; 255; 255; 192] = (q, Ok r)
      /\ pr_msgs r = [(1, MRaw [])] /\ sp_buf q = [192].
Proof.
  refine (conj _ (conj _ _)).
  - constructor.
  - repeat apply Forall_cons; try apply Forall_nil; unfold is_byte; lia.
  - eexists _, _. split; [vm_compute; reflexivity | split; reflexivity].
Qed.

(** C04 *)
Theorem C04_resynchronisation : forall lib chunks p garbage traffic,
  Forall (sent_ok (sp_skip p)) traffic -> no_c0 garbage -> Forall is_byte garbage ->
  sp_buf p ++ concat chunks = garbage ++ wire traffic -> chunks <> [] ->
  exists p' errs, feeds lib p chunks p' (delivered traffic) errs /\ sp_buf p' = []
    /\ Forall (fun e => pe_exn e = ParseError) errs.
Proof. exact garbage_any. Qed.
Print Assumptions C04_resynchronisation.
Theorem C04_garbage_in_one_chunk_is_one_error : forall lib p garbage traffic,
  Forall (sent_ok (sp_skip p)) traffic -> no_c0 garbage -> Forall is_byte garbage -> garbage <> [] -> sp_buf p = [] ->
  exists p', sparse lib p (garbage ++ wire traffic)
      = (p', Ok (mkPR (delivered traffic) (8 * zlen (wire traffic)) 0 [mkPErr ParseError (zlen garbage)]))
    /\ sp_buf p' = [].
Proof. exact garbage_once. Qed.
Print Assumptions C04_garbage_in_one_chunk_is_one_error.
Example C04_case : no_c0 [1; 2; 3] /\ Forall (sent_ok true) [mkSent 9 1 [192; 0; 192] (MRaw [192; 0; 192])].
Proof.
  split; [repeat constructor; discriminate|]. constructor; [|constructor].
  apply sent_raw; try (unfold is_byte; lia). split; [repeat apply Forall_cons; try apply Forall_nil; unfold is_byte; lia | vm_compute; discriminate].
Qed.

(** C05 *)
Theorem C05_only_crc_checked_messages : forall lib p x p' r,
  byte_in p -> Forall is_byte x -> sparse lib p x = (p', Ok r) -> decodes (sp_skip p) (sp_buf p ++ x) (pr_msgs r).
Proof. exact parse_decodes. Qed.
Print Assumptions C05_only_crc_checked_messages.
Example C05_case : exists p r p' r', sparse true (new_parser true) (frame 7 1 [1; 2; 3]) = (p, Ok r)
  /\ pr_msgs r = [(1, MRaw [1; 2; 3])]
  /\ frame 7 1 [1; 2; 3] = [192; 0; 7; 1; 3; 173; 173; 1; 2; 3]
  /\ sparse true (new_parser true) [192; 0; 7; 1; 3; 173; 172; 1; 2; 3] = (p', Ok r') /\ pr_msgs r' = [].
Proof.
  eexists _, _, _, _. split; [vm_compute; reflexivity|]. split; [reflexivity|]. split; [vm_compute; reflexivity|].
  split; [vm_compute; reflexivity | reflexivity].
Qed.

(** C06 *)
Theorem C06_crc_detects : forall p w,
  Forall is_byte p -> Forall is_byte w -> length w = length (protected p) -> w <> protected p ->
  (burst 16 (diff (bytes_bits (protected p)) (bytes_bits w))
   \/ Nat.odd (weight (diff (bytes_bits (protected p)) (bytes_bits w))) = true
   \/ (weight (diff (bytes_bits (protected p)) (bytes_bits w)) = 2%nat /\ zlen w <= 4095)) ->
  ~ exists p', w = protected p'.
Proof. exact crc_detects. Qed.
Print Assumptions C06_crc_detects.
(** the same error in a frame: the receiver reports it, or raises because of
    something that follows *)
Theorem C06_receiver_rejects : forall lib q c t p w h l,
  sp_buf q = [] -> is_byte c -> is_byte t -> is_payload p ->
  Forall is_byte (w ++ [h; l]) -> length w = length p -> w ++ [h; l] <> protected p ->
  (burst 16 (diff (bytes_bits (protected p)) (bytes_bits (w ++ [h; l])))
   \/ Nat.odd (weight (diff (bytes_bits (protected p)) (bytes_bits (w ++ [h; l])))) = true
   \/ weight (diff (bytes_bits (protected p)) (bytes_bits (w ++ [h; l]))) = 2%nat) ->
  forall rest, Forall is_byte rest ->
  (exists q' e, sparse lib q ([192; 0; c; t; zlen w; h; l] ++ w ++ rest) = (q', Err e)) \/
  (exists q' r es n, sparse lib q ([192; 0; c; t; zlen w; h; l] ++ w ++ rest) = (q', Ok r)
     /\ pr_errors r = mkPErr ParseError n :: es
     /\ decodes (sp_skip q) ([0; c; t; zlen w; h; l] ++ w ++ rest) (pr_msgs r)).
Proof. exact corrupted_rejected. Qed.
Print Assumptions C06_receiver_rejects.
Example C06_case : protected [32; 64; 0; 4; 0; 243; 0; 0] = [32; 64; 0; 4; 0; 243; 0; 0; 164; 190]
  /\ protected [11; 53; 44; 125; 64; 0; 0] = [11; 53; 44; 125; 64; 0; 0; 51; 173]
  /\ burst 16 (diff (bytes_bits (protected [1; 2; 3])) (bytes_bits ([1; 253; 252] ++ [173; 173]))).
Proof.
  split; [vm_compute; reflexivity|]. split; [vm_compute; reflexivity|].
  exists 8%nat, (repeat true 16), 16%nat. split; [vm_compute; reflexivity | cbn; lia].
Qed.

(** C07 *)
Theorem C07_counter_and_type_unprotected : forall lib p a m c c' t',
  transmits (sp_skip p) a m -> sp_buf p = [] -> is_byte c' -> is_byte t' -> t' <> 5 ->
  exists bs, a = Ok bs /\
  let changed := firstn 2 (frame c 1 bs) ++ [c'; t'] ++ skipn 4 (frame c 1 bs) in
  exists q r, sparse lib p changed = (q, Ok r) /\ pr_msgs r = [(t', if t' =? 4 then MRaw bs else m)]
    /\ pr_errors r = [] /\ sp_buf q = [].
Proof. exact header_free. Qed.
Print Assumptions C07_counter_and_type_unprotected.
Theorem C07_any_command_is_transmitted : forall c, command_wf c -> command_bytes c <= 255 ->
  transmits false (command_ser c) (MCmd (command_received c)).
Proof. exact transmits_command. Qed.
Print Assumptions C07_any_command_is_transmitted.
Example C07_case : exists p r, sparse true (new_parser true) [192; 0; 77; 3; 3; 173; 173; 1; 2; 3] = (p, Ok r)
  /\ pr_msgs r = [(3, MRaw [1; 2; 3])].
Proof. eexists _, _. split; [vm_compute; reflexivity | reflexivity]. Qed.

(** C08 *)
Theorem C08_error_counter_counts_jumps : forall lib chunks p traffic,
  Forall (sent_ok (sp_skip p)) traffic -> sp_buf p ++ concat chunks = wire traffic -> chunks <> [] -> is_byte (sp_down p) ->
  exists p', feeds lib p chunks p' (delivered traffic) [] /\ sp_buf p' = []
    /\ sp_errs p' = sp_errs p + jumps (sp_down p) (map s_counter traffic)
    /\ sp_down p' = last (map s_counter traffic) (sp_down p).
Proof. exact traffic. Qed.
Print Assumptions C08_error_counter_counts_jumps.
Theorem C08_in_step_no_errors : forall lib skip s sers fs s' q msgs chunks,
  sends s sers fs s' -> Forall2 (transmits skip) sers msgs ->
  is_byte (sp_up s) -> sp_skip q = skip -> sp_buf q = [] -> concat chunks = concat fs -> chunks <> [] ->
  is_byte (sp_down q) -> in_step s q ->
  exists q', feeds lib q chunks q' (map (fun m => (1, m)) msgs) [] /\ sp_buf q' = []
    /\ sp_errs q' = sp_errs q /\ in_step s' q'.
Proof. exact link_in_step. Qed.
Print Assumptions C08_in_step_no_errors.
Theorem C08_loss_counted_once : forall lib skip s lost lfs s1 sers fs s' q lmsgs msgs chunks,
  sends s lost lfs s1 -> Forall2 (transmits skip) lost lmsgs ->
  sends s1 sers fs s' -> Forall2 (transmits skip) sers msgs -> sers <> [] ->
  is_byte (sp_up s) -> sp_skip q = skip -> sp_buf q = [] -> concat chunks = concat fs -> chunks <> [] ->
  is_byte (sp_down q) -> in_step s q ->
  exists q', feeds lib q chunks q' (map (fun m => (1, m)) msgs) [] /\ sp_buf q' = []
    /\ sp_errs q' = sp_errs q + (if zlen lost mod 256 =? 0 then 0 else 1) /\ in_step s' q'.
Proof. exact link_loss. Qed.
Print Assumptions C08_loss_counted_once.
Theorem C08_fresh_pair_counts_one : forall lib skip sers fs s' msgs chunks,
  sends (new_parser skip) sers fs s' -> Forall2 (transmits skip) sers msgs ->
  concat chunks = concat fs -> chunks <> [] -> sers <> [] ->
  exists q', feeds lib (new_parser skip) chunks q' (map (fun m => (1, m)) msgs) [] /\ sp_buf q' = []
    /\ sp_errs q' = 1 /\ in_step s' q'.
Proof. exact link_fresh. Qed.
Print Assumptions C08_fresh_pair_counts_one.
Example C08_case : in_step (mkSP [] true 0 0 0) (mkSP [] true 3 255 1) /\ jumps 255 [0; 1; 2; 7; 8; 8] = 2
  /\ exists s', sends (mkSP [] true 255 0 0) [Ok [5]; Ok [6]] [frame 255 1 [5]; frame 0 1 [6]] s' /\ sp_up s' = 1.
Proof.
  split; [reflexivity|]. split; [reflexivity|].
  exists (mkSP [] true 1 0 0). split; [|reflexivity].
  apply (sends_cons _ _ (mkSP [] true 0 0 0)); [vm_compute; reflexivity|].
  apply (sends_cons _ _ (mkSP [] true 1 0 0)); [vm_compute; reflexivity|]. constructor.
Qed.

(** C09 *)
Theorem C09_parse_terminates_cleanly : forall lib p x p' r,
  byte_in p -> Forall is_byte x -> sparse lib p x = (p', r) ->
  match r with
  | Err e => e = IndexError
  | Ok r => (exists pre, sp_buf p ++ x = pre ++ sp_buf p') /\ (sp_buf p' = [] \/ exists b, sp_buf p' = 192 :: b /\ hd 0 b = 0)
     /\ (exists q r', sparse lib p' [] = (q, Ok r') /\ sp_buf q = sp_buf p' /\ pr_msgs r' = [] /\ pr_errors r' = [])
     /\ pr_left r = 8 * zlen (sp_buf p')
     /\ pr_parsed r + 8 * fold_right (fun e a => pe_skipped e + a) 0 (pr_errors r) + pr_left r = 8 * zlen (sp_buf p ++ x)
     /\ Forall (fun e => 0 < pe_skipped e) (pr_errors r)
  end.
Proof. exact parse_returns. Qed.
Print Assumptions C09_parse_terminates_cleanly.
Example C09_case : exists p, sparse false (new_parser true) [5; 192; 3; 192; 0; 1] = (p, Ok (mkPR [] 0 24 [mkPErr ParseError 1; mkPErr ParseError 2]))
  /\ sp_buf p = [192; 0; 1].
Proof. eexists. split; vm_compute; reflexivity. Qed.

(** C10 *)
Theorem C10_when_parse_raises : forall lib p x p' e,
  byte_in p -> Forall is_byte x -> sparse lib p x = (p', Err e) ->
  e = IndexError /\ sp_skip p = false /\ exists pre c t payload rest,
    sp_buf p ++ x = pre ++ sp_buf p' /\ sp_buf p' = frame c t payload ++ rest
    /\ is_byte c /\ is_byte t /\ is_payload payload /\ Forall is_byte rest /\ t <> 4 /\ t <> 5
    /\ alp_parse (zlen payload) (St 56 (bytes_bits (payload ++ rest))) = Err AssertNoMsg.
Proof. exact raise_inv. Qed.
Print Assumptions C10_when_parse_raises.
Theorem C10_poison_raises : forall lib p x c t payload rest,
  byte_in p -> Forall is_byte x -> sp_skip p = false ->
  sp_buf p ++ x = frame c t payload ++ rest -> is_byte c -> is_byte t -> is_payload payload -> Forall is_byte rest ->
  t <> 4 -> t <> 5 -> alp_parse (zlen payload) (St 56 (bytes_bits (payload ++ rest))) = Err AssertNoMsg ->
  exists p', sparse lib p x = (p', Err IndexError) /\ sp_buf p' = sp_buf p ++ x.
Proof. exact poison_raises. Qed.
Print Assumptions C10_poison_raises.
Theorem C10_poison_for_ever : forall lib p x p' e y,
  byte_in p -> Forall is_byte x -> sparse lib p x = (p', Err e) -> Forall is_byte y ->
  exists p'', sparse lib p' y = (p'', Err IndexError) /\ sp_buf p'' = sp_buf p' ++ y.
Proof. exact poison_forever. Qed.
Print Assumptions C10_poison_for_ever.
Theorem C10_poison_loses_earlier_messages : forall lib p traffic c t payload rest,
  sp_buf p = [] -> sp_skip p = false -> Forall (sent_ok false) traffic ->
  is_byte c -> is_byte t -> is_payload payload -> Forall is_byte rest -> t <> 4 -> t <> 5 ->
  alp_parse (zlen payload) (St 56 (bytes_bits (payload ++ rest))) = Err AssertNoMsg ->
  (exists p', sparse lib p (wire traffic ++ frame c t payload ++ rest) = (p', Err IndexError)
     /\ sp_buf p' = frame c t payload ++ rest)
  /\ (exists p' r, sparse lib p (wire traffic) = (p', Ok r) /\ pr_msgs r = delivered traffic).
Proof. exact poison_loses. Qed.
Print Assumptions C10_poison_loses_earlier_messages.
Theorem C10_skip_mode_never_raises : forall lib p x p' r,
  byte_in p -> Forall is_byte x -> sp_skip p = true -> sparse lib p x = (p', r) -> exists r', r = Ok r'.
Proof. exact skip_never_raises. Qed.
Print Assumptions C10_skip_mode_never_raises.
Example C10_case : exists p, sparse false (new_parser false) (frame 1 1 [9; 0]) = (p, Err IndexError)
  /\ alp_parse (zlen [9; 0]) (St 56 (bytes_bits ([9; 0] ++ []))) = Err AssertNoMsg.
Proof. eexists. split; vm_compute; reflexivity. Qed.

(** C11 *)
Theorem C11_consumed_length : forall skip t payload rest m k,
  Forall is_byte (payload ++ rest) -> carries skip t payload rest m k ->
  (t = 5 -> k = 1%nat) /\ (t <> 5 -> (length payload <= k)%nat) /\
  (t = 4 \/ skip = true /\ t <> 5 -> k = length payload).
Proof. exact carries_length. Qed.
Print Assumptions C11_consumed_length.
Theorem C11_frame_then_rest : forall lib p c t payload rest m k, sp_buf p = [] ->
  is_byte c -> is_byte t -> is_payload payload -> Forall is_byte rest -> carries (sp_skip p) t payload rest m k ->
  sparse lib p (frame c t payload ++ rest) =
  let (p', r) := sparse lib (bump p c) (skipn k (payload ++ rest)) in
  (p', let! r := r in Ok (mkPR ((t, m) :: pr_msgs r) (Z.of_nat (8 * (7 + k)) + pr_parsed r) (pr_left r) (pr_errors r))).
Proof. exact parse_frame. Qed.
Print Assumptions C11_frame_then_rest.
Theorem C11_overrun_eats_next_frame : forall lib, exists q r,
  sparse lib (new_parser false) (frame 1 1 [17; 64] ++ frame 2 1 [52; 9; 1; 64; 0; 4]) = (q, Ok r)
  /\ length (pr_msgs r) = 1%nat /\ pr_parsed r = 8 * (7 + 2 + 12).
Proof. exact overrun_witness. Qed.
Print Assumptions C11_overrun_eats_next_frame.
Example C11_case : carries false 5 [3; 4] [] (MInt 3) 1 /\ carries true 1 [3; 4] [7] (MRaw [3; 4]) 2.
Proof. split; [econstructor; reflexivity | apply carries_raw; [reflexivity | discriminate | discriminate]]. Qed.

(** C12 *)
Theorem C12_oversized_refused : forall p ser, is_byte (sp_up p) ->
  match ser with
  | Err e => build_serial_frame p ser = (p, Err e)
  | Ok a => if zlen a <=? 255
            then exists p', build_serial_frame p ser = (p', Ok (frame (sp_up p) 1 a))
                  /\ sp_up p' = (sp_up p + 1) mod 256 /\ sp_buf p' = sp_buf p /\ sp_skip p' = sp_skip p
                  /\ sp_down p' = sp_down p /\ sp_errs p' = sp_errs p
            else build_serial_frame p ser = (p, Err ValueError)
  end.
Proof. exact build_spec. Qed.
Print Assumptions C12_oversized_refused.
Theorem C12_frame_size : forall c t payload, length (frame c t payload) = (7 + length payload)%nat.
Proof. exact frame_length. Qed.
Print Assumptions C12_frame_size.
Example C12_case : build_serial_frame (mkSP [] true 255 0 0) (Ok (repeat 7 256)) = (mkSP [] true 255 0 0, Err ValueError)
  /\ (let (p, r) := build_serial_frame (mkSP [] true 255 0 0) (Ok (repeat 7 255)) in
      sp_up p = 0 /\ match r with Ok f => length f = 262%nat | Err _ => False end).
Proof. split; vm_compute; [reflexivity | split; reflexivity]. Qed.

(** C13 *)
Theorem C13_bounded_buffer_in_skip_mode : forall lib p x p' r,
  byte_in p -> Forall is_byte x -> sp_skip p = true -> sparse lib p x = (p', Ok r) -> zlen (sp_buf p') <= 261.
Proof. exact retained_bound. Qed.
Print Assumptions C13_bounded_buffer_in_skip_mode.
Theorem C13_alp_mode_retains_a_gigabyte : forall lib p c x,
  sp_buf p = [] -> sp_skip p = false -> is_byte c -> Forall is_byte x -> zlen x < 1073741823 ->
  exists p' r, sparse lib p (frame c 1 [4; 64; 0; 255; 255; 255; 255] ++ x) = (p', Ok r) /\ pr_msgs r = [] /\ pr_errors r = []
    /\ sp_buf p' = frame c 1 [4; 64; 0; 255; 255; 255; 255] ++ x.
Proof. exact retention. Qed.
Print Assumptions C13_alp_mode_retains_a_gigabyte.
Example C13_case : (let (p, r) := sparse true (new_parser true) ([192; 0; 0; 1; 255; 0; 0] ++ repeat 192 254) in
   zlen (sp_buf p) = 261 /\ match r with Ok _ => True | Err _ => False end).
Proof. vm_compute. split; [reflexivity | exact I]. Qed.

(** C14 *)
Theorem C14_logging_and_rebooted_frames : forall skip c, is_byte c ->
  (forall payload, is_payload payload -> sent_ok skip (mkSent c 4 payload (MRaw payload)))
  /\ (forall b, is_byte b -> sent_ok skip (mkSent c 5 [b] (MInt b))).
Proof. exact (fun skip c B => conj (fun a P => sent_logging skip c a B P) (fun b Bb => sent_rebooted skip c b B Bb)). Qed.
Print Assumptions C14_logging_and_rebooted_frames.
Theorem C14_delivered_between_other_frames : forall lib chunks p before m after,
  Forall (sent_ok (sp_skip p)) before -> Forall (sent_ok (sp_skip p)) after ->
  sent_ok (sp_skip p) m -> sp_buf p ++ concat chunks = wire before ++ sent_frame m ++ wire after -> chunks <> [] ->
  exists p', feeds lib p chunks p' (delivered before ++ (s_type m, s_msg m) :: delivered after) [] /\ sp_buf p' = [].
Proof. exact delivered_between. Qed.
Print Assumptions C14_delivered_between_other_frames.
Example C14_case : exists p r, sparse true (new_parser false) (frame 1 4 [72; 105] ++ frame 2 5 [1] ++ frame 3 4 []) = (p, Ok r)
  /\ pr_msgs r = [(4, MRaw [72; 105]); (5, MInt 1); (4, MRaw [])].
Proof. eexists _, _. split; [vm_compute; reflexivity | reflexivity]. Qed.

(** C51 *)
Theorem C51_loss_counter_depends_on_chunking : forall lib, exists p1 q1 r1 q2 r2,
  feeds lib (new_parser false) [frame 1 1 [1; 64]; [0; 4]] q1 r1 []
  /\ sparse lib (new_parser false) (frame 1 1 [1; 64]) = (p1, Ok (mkPR [] 0 72 []))
  /\ sparse lib (new_parser false) (frame 1 1 [1; 64] ++ [0; 4]) = (q2, Ok r2)
  /\ r1 = pr_msgs r2 /\ length r1 = 1%nat /\ sp_buf q1 = sp_buf q2
  /\ sp_errs q1 = 1 /\ sp_errs q2 = 0.
Proof. exact counter_witness. Qed.
Print Assumptions C51_loss_counter_depends_on_chunking.
(** the general rule: once the frame is there, every further call of [parse]
    until the message is complete adds one, whatever its chunk holds *)
Theorem C51_every_further_call_counts : forall lib p c t payload first chunks m,
  lib = true \/ (forall j, (j < length chunks)%nat -> ~ bit_missing (sp_skip p) t payload (first ++ concat (firstn j chunks))) ->
  sp_buf p = [] -> is_byte (sp_down p) -> is_byte c -> is_byte t -> is_payload payload ->
  Forall is_byte (first ++ concat chunks) ->
  carries (sp_skip p) t payload (first ++ concat chunks) m (length (payload ++ first ++ concat chunks)) ->
  (chunks <> [] -> last chunks [] <> []) ->
  exists q, feeds lib p ((frame c t payload ++ first) :: chunks) q [(t, m)] [] /\ sp_buf q = [] /\ sp_down q = c
    /\ sp_errs q = sp_errs p + (if c =? counter_after (sp_down p) then 0 else 1) + zlen chunks.
Proof. exact recheck. Qed.
Print Assumptions C51_every_further_call_counts.
Example C51_case : exists cmd q,
  carries false 1 [1; 64] ([] ++ concat [[0]; []; [4]]) (MCmd cmd) (length ([1; 64] ++ [] ++ concat [[0]; []; [4]]))
  /\ feeds true (new_parser false) ((frame 1 1 [1; 64] ++ []) :: [[0]; []; [4]]) q [(1, MCmd cmd)] []
  /\ sp_errs q = 3.
Proof.
  eexists. assert (C : forall cmd, alp_parse 2 (St 56 (bytes_bits [1; 64; 0; 4])) = Ok (cmd, St 88 []) ->
    carries false 1 [1; 64] ([] ++ concat [[0]; []; [4]]) (MCmd cmd) (length ([1; 64] ++ [] ++ concat [[0]; []; [4]]))).
  { intros cmd H. apply (carries_alp false 1 _ _ cmd 4); [reflexivity | lia | lia | exact H]. }
  specialize (C _ ltac:(vm_compute; reflexivity)).
  edestruct (fun a b c d e f => C51_every_further_call_counts true (new_parser false) 1 1 [1; 64] [] [[0]; []; [4]] _ (or_introl eq_refl) eq_refl a b c d e C f)
    as (q & G & _ & _ & E).
  - unfold is_byte. cbn. lia.
  - unfold is_byte. lia.
  - unfold is_byte. lia.
  - split; [|unfold zlen; cbn; lia]. repeat apply Forall_cons; try apply Forall_nil; unfold is_byte; lia.
  - cbn [app concat]. repeat apply Forall_cons; try apply Forall_nil; unfold is_byte; lia.
  - intros _. discriminate.
  - exists q. refine (conj C (conj G _)). rewrite E. reflexivity.
Qed.
(** if the library's end-of-data exception for a single bit is not a
    [ReadError], a cut there makes the receiver give the frame up *)
Theorem C51_cut_before_a_single_bit : forall p c t payload a r,
  byte_in p -> is_byte c -> is_byte t -> is_payload payload -> Forall is_byte r ->
  sp_buf p ++ a = frame c t payload ++ r -> bit_missing (sp_skip p) t payload r ->
  exists q, (exists pre, tl (frame c t payload ++ r) = pre ++ sp_buf q)
    /\ (sparse false p a = (q, Err IndexError)
        \/ exists res n es, sparse false p a = (q, Ok res) /\ pr_errors res = mkPErr BoolEof n :: es
             /\ decodes (sp_skip p) (tl (frame c t payload ++ r)) (pr_msgs res)).
Proof. exact gives_up. Qed.
Print Assumptions C51_cut_before_a_single_bit.
(** a forward command to the radio interface, cut behind its frame: with the one
    library it arrives, with the other it is lost *)
Example C51_case_bit : bit_missing false 1 [50; 215] []
  /\ (exists q m, feeds true (new_parser false) [frame 1 1 [50; 215]; [0; 0; 0; 0; 0]] q [(1, m)] [])
  /\ (exists q es, feeds false (new_parser false) [frame 1 1 [50; 215]; [0; 0; 0; 0; 0]] q [] es)
  /\ (exists q m, feeds false (new_parser false) [frame 1 1 [50; 215] ++ [0; 0; 0; 0; 0]] q [(1, m)] [])
  /\ (exists q m, feeds false (new_parser false) [frame 1 1 [50; 215] ++ [0]; [0; 0; 0; 0]] q [(1, m)] []).
Proof.
  refine (conj _ (conj _ (conj _ (conj _ _)))).
  - refine (conj eq_refl (conj _ (conj _ _))); [lia | lia | vm_compute; reflexivity].
  - eexists _, _. eapply (feeds_cons _ _ _ _ (mkPR [] _ _ []) _ _ [_] []); [vm_compute; reflexivity|].
    eapply (feeds_cons _ _ _ _ (mkPR [_] _ _ []) _ _ [] []); [vm_compute; reflexivity | apply feeds_nil].
  - eexists _, _. eapply (feeds_cons _ _ _ _ (mkPR [] _ _ _) _ _ []); [vm_compute; reflexivity|].
    eapply (feeds_cons _ _ _ _ (mkPR [] _ _ _) _ _ []); [vm_compute; reflexivity | apply feeds_nil].
  - eexists _, _. eapply (feeds_cons _ _ _ _ (mkPR [_] _ _ []) _ _ [] []); [vm_compute; reflexivity | apply feeds_nil].
  - eexists _, _. eapply (feeds_cons _ _ _ _ (mkPR [] _ _ []) _ _ [_] []); [vm_compute; reflexivity|].
    eapply (feeds_cons _ _ _ _ (mkPR [_] _ _ []) _ _ [] []); [vm_compute; reflexivity | apply feeds_nil].
Qed.

(** C52 *)
Theorem C52_every_byte_accounted_for : forall lib p x p' r,
  byte_in p -> Forall is_byte x -> sparse lib p x = (p', Ok r) ->
  pr_left r = 8 * zlen (sp_buf p') /\
  pr_parsed r + 8 * fold_right (fun e a => pe_skipped e + a) 0 (pr_errors r) + pr_left r = 8 * zlen (sp_buf p ++ x)
  /\ Forall (fun e => 0 < pe_skipped e) (pr_errors r).
Proof. exact accounted. Qed.
Print Assumptions C52_every_byte_accounted_for.
Example C52_case : exists p, sparse false (new_parser true) ([5; 192; 3] ++ frame 1 1 [8; 8] ++ [192])
   = (p, Ok (mkPR [(1, MRaw [8; 8])] 72 8 [mkPErr ParseError 1; mkPErr ParseError 2])) /\ sp_buf p = [192].
Proof. eexists. split; vm_compute; reflexivity. Qed.
