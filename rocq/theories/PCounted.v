(** C107: what the loss counter counts. *)
From Verif Require Import SCounted LCounted.
Open Scope list_scope.
Open Scope Z_scope.

(** Whatever the bytes are, and also if the call raises: the headers the parser
    looks at count, each one whose counter does not follow the one before. *)
Theorem C107_counted : forall lib p x, byte_in p -> Forall is_byte x -> is_byte (sp_down p) ->
  let l := looked_at (snd (parse_rounds lib p x)) in
  sp_down (fst (sparse lib p x)) = last l (sp_down p)
  /\ sp_errs (fst (sparse lib p x)) = sp_errs p + jumps (sp_down p) l.
Proof. exact counted. Qed.
Print Assumptions C107_counted.
(** a frame with a wrong CRC, in step; a good one; noise; one that is not complete *)
Example C107_case : forall lib,
  looked_at (snd (parse_rounds lib (new_parser true) ([192; 0; 1; 1; 1; 0; 0; 9] ++ frame 2 1 [9] ++ [7; 192; 5] ++ [192; 0; 3; 1; 9; 0; 0]))) = [1; 2]
  /\ sp_errs (fst (sparse lib (new_parser true) ([192; 0; 1; 1; 1; 0; 0; 9] ++ frame 2 1 [9] ++ [7; 192; 5] ++ [192; 0; 3; 1; 9; 0; 0]))) = 0.
Proof. intros [|]; vm_compute; auto. Qed.

(** For any bytes in any chunks: beside what one call would count, exactly one
    is added each time a frame is put off and looked at again. *)
Theorem C107_in_chunks : forall lib p chunks p' ms es, byte_in p -> Forall (Forall is_byte) chunks -> chunks <> [] ->
  lib = true \/ sp_skip p = true -> is_byte (sp_down p) -> feeds lib p chunks p' ms es ->
  let q := fst (sparse lib p (concat chunks)) in
  sp_down p' = sp_down q
  /\ sp_errs p' = sp_errs q + (times_put_off (all_rounds lib p chunks) - times_put_off (snd (parse_rounds lib p (concat chunks)))).
Proof. exact chunks_counted. Qed.
Print Assumptions C107_in_chunks.
Theorem C107_one_call_counts_least : forall lib p chunks p' ms es, byte_in p -> Forall (Forall is_byte) chunks -> chunks <> [] ->
  lib = true \/ sp_skip p = true -> is_byte (sp_down p) -> feeds lib p chunks p' ms es ->
  sp_errs (fst (sparse lib p (concat chunks))) <= sp_errs p'.
Proof. exact one_call_least. Qed.
Print Assumptions C107_one_call_counts_least.
Example C107_case_chunks : exists p' ms es, feeds true (new_parser false) [frame 1 1 [1; 64]; []; [0; 4]] p' ms es /\ es = [] /\ length ms = 1%nat
  /\ sp_errs p' = 2 /\ times_put_off (all_rounds true (new_parser false) [frame 1 1 [1; 64]; []; [0; 4]]) = 2
  /\ times_put_off (snd (parse_rounds true (new_parser false) (frame 1 1 [1; 64] ++ [0; 4]))) = 0.
Proof.
  do 3 eexists. split.
  - eapply feeds_cons; [vm_compute; reflexivity|]. eapply feeds_cons; [vm_compute; reflexivity|].
    eapply feeds_cons; [vm_compute; reflexivity|]. apply feeds_nil.
  - vm_compute. auto 10.
Qed.

(** Good and damaged frames in any order and in any chunks: the good ones are
    delivered, each damaged one is reported once, and the counters of both count. *)
Theorem C107_arrivals : forall lib p chunks l,
  Forall (arrival_ok (sp_skip p)) l -> sp_buf p ++ concat chunks = arriving l -> chunks <> [] -> is_byte (sp_down p) ->
  exists p', feeds lib p chunks p' (delivered (accepted l)) (refused l) /\ sp_buf p' = []
    /\ sp_down p' = last (map arrival_counter l) (sp_down p)
    /\ sp_errs p' = sp_errs p + jumps (sp_down p) (map arrival_counter l).
Proof. exact arrivals. Qed.
Print Assumptions C107_arrivals.
(** So messages that are lost to damage are not counted: if the frames are sent
    one after the other and some arrive with a wrong CRC, the counter stays. *)
Theorem C107_damage_is_loss_refuted : forall lib p chunks l,
  Forall (arrival_ok (sp_skip p)) l -> sp_buf p ++ concat chunks = arriving l -> chunks <> [] -> is_byte (sp_down p) ->
  (forall i c, nth_error (map arrival_counter l) i = Some c -> c = (sp_down p + 1 + Z.of_nat i) mod 256) ->
  exists p' msgs errs, feeds lib p chunks p' msgs errs /\ sp_errs p' = sp_errs p
    /\ (length msgs + length errs = length l)%nat /\ msgs = delivered (accepted l).
Proof. exact arrivals_in_step. Qed.
Print Assumptions C107_damage_is_loss_refuted.
(** And where nothing was lost something is counted: bytes that look like a
    damaged frame, before frames that are in step and are all delivered. *)
Theorem C107_no_loss_no_count_refuted : forall lib p chunks d l,
  hit_ok d -> Forall (sent_ok (sp_skip p)) l -> l <> [] -> is_byte (sp_down p) ->
  (forall i c, nth_error (map s_counter l) i = Some c -> c = (sp_down p + 1 + Z.of_nat i) mod 256) ->
  sp_buf p ++ concat chunks = hit_bytes d ++ wire l -> chunks <> [] ->
  exists p' errs, feeds lib p chunks p' (delivered l) errs
    /\ sp_errs p' = sp_errs p + (if (h_counter d =? sp_down p) || (h_counter d =? counter_after (sp_down p)) then 1 else 2).
Proof. exact noise. Qed.
Print Assumptions C107_no_loss_no_count_refuted.
(** between two good frames one with a changed payload *)
Definition three : list Arrival :=
  [Whole (mkSent 255 4 [72] (MRaw [72])); Hurt (mkHit 0 1 17 34 [9; 9]); Whole (mkSent 1 4 [73] (MRaw [73]))].
Example C107_case_three : forall skip, Forall (arrival_ok skip) three
  /\ (forall i c, nth_error (map arrival_counter three) i = Some c -> c = (254 + 1 + Z.of_nat i) mod 256)
  /\ map (fun x => s_payload x) (accepted three) = [[72]; [73]] /\ map pe_skipped (refused three) = [9].
Proof.
  intros skip. split; [|split; [|split; reflexivity]].
  - repeat constructor; try (vm_compute; discriminate); try (vm_compute; congruence); try (intros; apply carries_logging).
  - intros [|[|[|i]]] c; cbn [map three arrival_counter s_counter h_counter nth_error]; intros E; try (injection E as <-; reflexivity).
    destruct i; discriminate.
Qed.
