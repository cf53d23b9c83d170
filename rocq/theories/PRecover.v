(** Frames behind damaged or truncated ones. *)
From Verif Require Import SRecover LRecover3 LSend.

(** C82 *)
Theorem C82_all_delivered : forall lib chunks p damage traffic,
  Forall (sent_ok (sp_skip p)) traffic -> Forall is_byte damage ->
  harmless damage (wire traffic) -> settled damage (wire traffic) ->
  sp_buf p ++ concat chunks = damage ++ wire traffic -> chunks <> [] ->
  exists p' errs, feeds lib p chunks p' (delivered traffic) errs /\ sp_buf p' = []
    /\ Forall (fun e => pe_exn e = ParseError) errs.
Proof. exact recover_all. Qed.
Print Assumptions C82_all_delivered.
Example C82_case : harmless [192; 0; 7; 1; 3; 173; 173; 1; 2] (wire [mkSent 8 1 [9] (MRaw [9])])
  /\ settled [192; 0; 7; 1; 3; 173; 173; 1; 2] (wire [mkSent 8 1 [9] (MRaw [9])]).
Proof. exact cut_case. Qed.
(** nothing is held back any more once 261 bytes followed the damage *)
Theorem C82_after_261_bytes : forall lib chunks p damage traffic,
  Forall (sent_ok (sp_skip p)) traffic -> Forall is_byte damage ->
  harmless damage (wire traffic) -> 261 <= zlen (wire traffic) ->
  sp_buf p ++ concat chunks = damage ++ wire traffic -> chunks <> [] ->
  exists p' errs, feeds lib p chunks p' (delivered traffic) errs /\ sp_buf p' = []
    /\ Forall (fun e => pe_exn e = ParseError) errs.
Proof. exact recover_long. Qed.
Print Assumptions C82_after_261_bytes.
(** before that: all frames are delivered, or they are all still in the buffer *)
Theorem C82_held_back : forall lib chunks p damage traffic,
  Forall (sent_ok (sp_skip p)) traffic -> Forall is_byte damage -> harmless damage (wire traffic) ->
  sp_buf p ++ concat chunks = damage ++ wire traffic -> chunks <> [] ->
  exists p' msgs errs, feeds lib p chunks p' msgs errs
    /\ Forall (fun e => pe_exn e = ParseError) errs
    /\ ((msgs = delivered traffic /\ sp_buf p' = [])
        \/ (msgs = [] /\ exists pre d', damage = pre ++ d' /\ d' <> []
              /\ sp_buf p' = d' ++ wire traffic /\ zlen (sp_buf p') <= 261)).
Proof. exact recover_part. Qed.
Print Assumptions C82_held_back.
(** they can be held back: a header that announces 255 bytes, then a frame *)
Example C82_case_held_back : exists p r,
  sparse true (new_parser true) ([192; 0; 7; 1; 255; 1; 2] ++ frame 8 1 [9]) = (p, Ok r)
  /\ pr_msgs r = [] /\ pr_errors r = [] /\ sp_buf p = [192; 0; 7; 1; 255; 1; 2] ++ frame 8 1 [9].
Proof. eexists _, _. split; [vm_compute; reflexivity|]. repeat split. Qed.
(** a frame hit by an error the CRC always detects (as in C06) costs no later frame *)
Theorem C82_after_error : forall lib chunks q c t p w h l traffic,
  Forall (sent_ok (sp_skip q)) traffic -> is_byte c -> is_byte t -> is_payload p ->
  Forall is_byte (w ++ [h; l]) -> length w = length p -> w ++ [h; l] <> protected p ->
  (burst 16 (diff (bytes_bits (protected p)) (bytes_bits (w ++ [h; l])))
   \/ Nat.odd (weight (diff (bytes_bits (protected p)) (bytes_bits (w ++ [h; l])))) = true
   \/ weight (diff (bytes_bits (protected p)) (bytes_bits (w ++ [h; l]))) = 2%nat) ->
  no_c0 ([c; t; zlen w; h; l] ++ w) ->
  sp_buf q ++ concat chunks = ([192; 0; c; t; zlen w; h; l] ++ w) ++ wire traffic -> chunks <> [] ->
  exists q' errs, feeds lib q chunks q' (delivered traffic) errs /\ sp_buf q' = []
    /\ Forall (fun e => pe_exn e = ParseError) errs.
Proof. exact after_hit. Qed.
Print Assumptions C82_after_error.
(** nor does a frame whose last byte or last two bytes were lost, unless what was
    lost is what the next frame begins with *)
Theorem C82_after_cut : forall lib chunks q c t p d lost traffic,
  Forall (sent_ok (sp_skip q)) traffic -> traffic <> [] -> is_byte c -> is_byte t -> is_payload p ->
  frame c t p = d ++ lost -> (length lost <= length p)%nat ->
  ((exists b, lost = [b] /\ b <> 192) \/ (exists b1 b2, lost = [b1; b2] /\ ~ (b1 = 192 /\ b2 = 0))) ->
  no_c0 (tl d) ->
  sp_buf q ++ concat chunks = d ++ wire traffic -> chunks <> [] ->
  exists q' errs, feeds lib q chunks q' (delivered traffic) errs /\ sp_buf q' = []
    /\ Forall (fun e => pe_exn e = ParseError) errs.
Proof. exact after_cut. Qed.
Print Assumptions C82_after_cut.
Example C82_case_cut : frame 7 1 [1; 2; 3] = [192; 0; 7; 1; 3; 173; 173; 1; 2] ++ [3]
  /\ no_c0 (tl [192; 0; 7; 1; 3; 173; 173; 1; 2]).
Proof. split; [vm_compute; reflexivity | repeat constructor; discriminate]. Qed.
(** if it is, the truncated frame is delivered as if nothing was lost and the next
    one is not *)
Theorem C82_swallowed_refuted : forall lib p y x l d,
  Forall (sent_ok (sp_skip p)) (y :: x :: l) -> sp_buf p = [] ->
  sent_frame y = d ++ [192] -> no_c0 (tl (sent_frame x)) ->
  exists p' errs, feeds lib p [d ++ wire (x :: l)] p' (delivered (y :: l)) errs /\ sp_buf p' = [].
Proof. exact swallowed. Qed.
Print Assumptions C82_swallowed_refuted.
Example C82_case_swallowed : exists d,
  sent_frame (mkSent 7 1 [1; 192] (MRaw [1; 192])) = d ++ [192]
  /\ no_c0 (tl (sent_frame (mkSent 8 1 [9] (MRaw [9]))))
  /\ Forall (sent_ok true) [mkSent 7 1 [1; 192] (MRaw [1; 192]); mkSent 8 1 [9] (MRaw [9])].
Proof.
  eexists (removelast (frame 7 1 [1; 192])). split; [vm_compute; reflexivity|]. split.
  - vm_compute. repeat constructor; discriminate.
  - repeat apply Forall_cons; try apply Forall_nil; (apply sent_raw; try (unfold is_byte; lia);
    split; [repeat apply Forall_cons; try apply Forall_nil; unfold is_byte; lia | vm_compute; discriminate]).
Qed.

(** intact frames and damage in any order *)
Theorem C82_pieces : forall lib chunks p pieces,
  line_ok (sp_skip p) pieces -> sp_buf p ++ concat chunks = on_line pieces -> chunks <> [] ->
  exists p' errs, feeds lib p chunks p' (delivered (intact pieces)) errs /\ sp_buf p' = []
    /\ Forall (fun e => pe_exn e = ParseError) errs.
Proof. exact recover_line. Qed.
Print Assumptions C82_pieces.
Example C82_case_pieces : line_ok true [Intact (mkSent 6 1 [4; 192] (MRaw [4; 192])); Damaged [192; 0; 7; 1; 3; 173; 173; 1; 2];
  Intact (mkSent 8 1 [9] (MRaw [9]))].
Proof. exact pieces_case. Qed.
