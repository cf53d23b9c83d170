(** C101: several threads in one Parser. *)
From Coq Require Import Lia.
From Verif Require Import SInside LInside2 LInside3 LInside4 LInside5 LInside6.

(** C101 *)
Theorem C101_undisturbed : forall lib p n ls w i msg, byte_in p -> Forall is_byte (given ls) ->
  inside_run lib (inside_of p n) ls = Some w -> nth_error (in_places w) i = Some PIdle -> Forall is_byte msg ->
  exists k w', inside_run lib w (ICall i msg :: repeat (IGo i) k) = Some w'
  /\ parser_now w' = fst (sparse lib (parser_now w) msg)
  /\ in_results w' = in_results w ++ [(i, snd (sparse lib (parser_now w) msg))]
  /\ in_places w' = in_places w.
Proof. exact inside_alone. Qed.
Print Assumptions C101_undisturbed.
Theorem C101_one_by_one : forall lib p n ls calls w, byte_in p -> Forall is_byte (given ls) ->
  one_by_one lib (inside_of p n) ls calls w ->
  parser_now w = fst (in_turn lib p calls) /\ in_results w = snd (in_turn lib p calls) /\ nobody_inside w.
Proof. exact inside_turns. Qed.
Print Assumptions C101_one_by_one.
Theorem C101_one_by_one_exists : forall lib p n calls, byte_in p -> Forall (fun x => (fst x < n)%nat /\ Forall is_byte (snd x)) calls ->
  exists ls w, one_by_one lib (inside_of p n) ls calls w /\ given ls = flat_map snd calls.
Proof. exact inside_turns_exist. Qed.
Print Assumptions C101_one_by_one_exists.
Theorem C101_only_whole_frames : forall lib p n ls w, byte_in p -> Forall is_byte (given ls) ->
  inside_run lib (inside_of p n) ls = Some w ->
  forall t m, In (t, m) (returned w) -> genuine lib (inside_of p n) ls t m.
Proof. exact inside_genuine. Qed.
Print Assumptions C101_only_whole_frames.
Theorem C101_raises : forall lib p n ls w, byte_in p -> Forall is_byte (given ls) ->
  inside_run lib (inside_of p n) ls = Some w ->
  forall i e, In (i, Err e) (in_results w) -> e = IndexError /\ poisoned lib (inside_of p n) ls.
Proof. exact inside_raises. Qed.
Print Assumptions C101_raises.
Theorem C101_never_waits : forall lib p n ls w i x, byte_in p -> Forall is_byte (given ls) ->
  inside_run lib (inside_of p n) ls = Some w ->
  nth_error (in_places w) i = Some x -> x <> PIdle -> exists w', inside_step lib w (IGo i) = Some w'.
Proof. exact inside_moves. Qed.
Print Assumptions C101_never_waits.
Theorem C101_twice_refuted : forall lib, exists ls w, inside_run lib (inside_of (new_parser true) 2) ls = Some w /\ bytewise ls
  /\ given ls = frame 1 4 [65] ++ [192] /\ nobody_inside w /\ returned w = [(4, MRaw [65]); (4, MRaw [65])].
Proof. exact inside_twice. Qed.
Print Assumptions C101_twice_refuted.
Theorem C101_lost_refuted : forall lib, exists ls w, inside_run lib (inside_of (new_parser true) 2) ls = Some w
  /\ given ls = frame 1 4 [65] ++ frame 2 4 [66] /\ nobody_inside w /\ returned w = [(4, MRaw [65])]
  /\ sp_buf (parser_now w) = [] /\ Forall (fun x => match snd x with Ok r => pr_errors r = [] | Err _ => False end) (in_results w).
Proof. exact inside_lost. Qed.
Print Assumptions C101_lost_refuted.
Theorem C101_ends_refuted : forall lib sk, exists f, goes_on f 0 /\ goes_on f 1
  /\ forall k, exists w more, inside_run lib (inside_of (new_parser sk) 2) (first_labels f k) = Some w
     /\ bytewise (first_labels f k) /\ given (first_labels f k) ++ more = [192; 0; 1; 4; 2; 0; 0; 192; 1; 7]
     /\ (length (in_results w) <= 8)%nat.
Proof. exact inside_endless. Qed.
Print Assumptions C101_ends_refuted.
Theorem C101_comes_out : forall lib p n ls w i, byte_in p -> Forall is_byte (given ls) ->
  inside_run lib (inside_of p n) ls = Some w -> (i < n)%nat ->
  exists k w', inside_run lib w (repeat (IGo i) k) = Some w' /\ nth_error (in_places w') i = Some PIdle
  /\ forall j, j <> i -> nth_error (in_places w') j = nth_error (in_places w) j.
Proof. exact inside_comes_out. Qed.
Print Assumptions C101_comes_out.
Theorem C101_ends : forall lib p n ls w, byte_in p -> Forall is_byte (given ls) -> inside_run lib (inside_of p n) ls = Some w ->
  exists K, forall is v, inside_run lib w (map IGo is) = Some v -> calm lib w is -> (length is <= K)%nat.
Proof. exact inside_ends. Qed.
Print Assumptions C101_ends.

(** the cases are met: two calls one by one, the second completing a frame *)
Example C101_case : exists w, one_by_one false (inside_of (new_parser true) 2)
    (ICall 1 [7; 192; 0; 1] :: repeat (IGo 1) 23 ++ ICall 0 [4; 1; 185; 21; 65] :: repeat (IGo 0) 17 ++ [])
    [(1%nat, [7; 192; 0; 1]); (0%nat, [4; 1; 185; 21; 65])] w
  /\ in_results w = [(1%nat, Ok (mkPR [] 0 24 [mkPErr ParseError 1])); (0%nat, Ok (mkPR [(4, MRaw [65])] 64 0 []))].
Proof.
  eexists. split.
  - econstructor; [vm_compute; reflexivity | reflexivity|]. econstructor; [vm_compute; reflexivity | reflexivity|]. constructor.
  - reflexivity.
Qed.
(** a frame the ALP parser asserts on *)
Example C101_case_raises : exists ls w, inside_run true (inside_of (new_parser false) 2) ls = Some w
  /\ in_results w = [(1%nat, Err IndexError)] /\ Forall is_byte (given ls).
Proof.
  exists (ICall 1 (frame 1 1 [9; 0]) :: repeat (IGo 1) 8). eexists. split; [vm_compute; reflexivity|]. split; [reflexivity|].
  vm_compute given. repeat (constructor; [unfold is_byte; lia|]). constructor.
Qed.
(** a run of two threads that meet no broken frame, with one message returned twice *)
Example C101_case_calm : exists w v, inside_run false (inside_of (new_parser true) 2) [ICall 0 (frame 1 4 [65]); ICall 1 []] = Some w
  /\ inside_run false w (map IGo ([0; 0; 1; 1] ++ repeat 0 7 ++ repeat 1 7 ++ repeat 0 8 ++ repeat 1 8)%nat) = Some v
  /\ calm false w ([0; 0; 1; 1] ++ repeat 0 7 ++ repeat 1 7 ++ repeat 0 8 ++ repeat 1 8)%nat /\ nobody_inside v.
Proof.
  do 2 eexists. split; [vm_compute; reflexivity|]. split; [vm_compute; reflexivity|].
  split; [apply calmb_ok; vm_compute; reflexivity | repeat constructor].
Qed.
