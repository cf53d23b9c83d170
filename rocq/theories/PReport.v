(** C88: what the error reports of the serial parser show.
    C89: how much the receiver does for the bytes it receives. *)
From Verif Require Import SReport LReport LReport2 LReport3.
Open Scope list_scope.
Open Scope Z_scope.

(** The rounds are those of [parse]: same state, messages, errors and exception. *)
Theorem C88_rounds : forall lib p x, byte_in p -> Forall is_byte x ->
  let (q, rs) := parse_rounds lib p x in
  fst (sparse lib p x) = q /\
  match snd (sparse lib p x) with
  | Ok r => pr_msgs r = messages rs /\ pr_errors r = errors rs /\ forall e, ~ leaves e rs
  | Err e => leaves e rs
  end.
Proof. exact rounds_are_parse. Qed.
Print Assumptions C88_rounds.
(** There is one report for every error, in order. *)
Theorem C88_returned : forall lib p x r, byte_in p -> Forall is_byte x -> snd (sparse lib p x) = Ok r ->
  reports lib p x = flat_map report (snd (parse_rounds lib p x))
  /\ map (fun r => mkPErr (rp_exn r) (rp_skipped r)) (reports lib p x) = pr_errors r.
Proof. exact reports_returned. Qed.
Print Assumptions C88_returned.
(** A call that raises returns no reports, and the log of the modem ends. *)
Theorem C88_raised : forall lib p q e, (forall x, sparse lib p x = (q, Err e) -> reports lib p x = [])
  /\ (forall b r, sparse lib p [b] = (q, Err e) -> modem_log lib p (b :: r) = []).
Proof. exact raised_both. Qed.
Print Assumptions C88_raised.
(** so an error found earlier in the same call is lost *)
Example C88_case_raised : forall lib,
  snd (sparse lib (new_parser false) ([17; 34] ++ frame 0 1 [9; 0])) = Err IndexError
  /\ flat_map report (snd (parse_rounds lib (new_parser false) ([17; 34] ++ frame 0 1 [9; 0]))) <> [].
Proof. intros [|]; (split; [vm_compute; reflexivity | vm_compute; discriminate]). Qed.
(** A report shows the bytes that are dropped and everything behind them; the
    dropped bytes and those of the messages, in order, and what is kept, are
    the bytes received. *)
Theorem C88_shows : forall lib p x q rs i r e n, byte_in p -> Forall is_byte x -> parse_rounds lib p x = (q, rs) ->
  nth_error rs i = Some r -> ro_out r = Bad e n ->
  exists rp, report r = [rp] /\ rp_exn rp = e /\
  let after := concat (map piece (skipn (S i) rs)) ++ sp_buf q in
  sp_buf p ++ x = concat (map piece (firstn i rs)) ++ piece r ++ after
  /\ reports_drop rp (piece r) after.
Proof. exact report_shown. Qed.
Print Assumptions C88_shows.
(** The text of a report, given to tools/parse_hexstring.py, reproduces the
    error, the later ones and the later messages. *)
Theorem C88_reproduced : forall lib p x q rs i r e n id, byte_in p -> Forall is_byte x -> sp_skip p = false ->
  parse_rounds lib p x = (q, rs) -> (forall e, ~ leaves e rs) -> nth_error rs i = Some r -> ro_out r = Bad e n ->
  exists res, tool lib T_serial id (hex_text (ro_buffer r)) = Ok (PrMessages res)
    /\ pr_msgs res = messages (skipn i rs) /\ pr_errors res = errors (skipn i rs) /\ hd_error (pr_errors res) = Some (mkPErr e n).
Proof. exact reproduced. Qed.
Print Assumptions C88_reproduced.
(** The log of a modem does not show the bytes dropped: the text is always that
    of the byte just read, *)
Theorem C88_modem_text : forall lib p b r, In r (modem_reports lib p [b]) -> rp_text r = [hex_char (b / 16); hex_char (b mod 16)].
Proof. exact modem_text. Qed.
Print Assumptions C88_modem_text.
(** also when a whole damaged frame is dropped *)
Theorem C88_modem_log_refuted : forall lib skip c t h l payload,
  is_byte c -> is_byte t -> is_byte h -> is_byte l -> is_payload payload ->
  calculate_crc payload <> (h, l) -> ~ In 192 (c :: t :: zlen payload :: h :: l :: payload) ->
  let bytes := 192 :: 0 :: c :: t :: zlen payload :: h :: l :: payload in
  modem_log lib (new_parser skip) bytes = [mkReport ParseError (hex_text [last bytes 0]) (zlen bytes)].
Proof. exact log_of_damaged. Qed.
Print Assumptions C88_modem_log_refuted.

(** garbage, a damaged frame, a log message, an incomplete frame *)
Definition mixed : list Z := [17; 34] ++ [192; 0; 1; 4; 1; 0; 0; 72] ++ frame 2 4 [72; 105] ++ [192; 0; 3].
Example C88_case : forall lib, let (q, rs) := parse_rounds lib (new_parser false) mixed in
  map ro_out rs = [Bad ParseError 2; Bad ParseError 8; Got 4 (MRaw [72; 105]) 9; Waits]
  /\ map rp_skipped (reports lib (new_parser false) mixed) = [2; 8]
  /\ hd [] (map rp_text (reports lib (new_parser false) [17; 192])) = [49; 49; 32; 99; 48]
  /\ sp_buf q = [192; 0; 3].
Proof. intros [|]; vm_compute; repeat split. Qed.
Example C88_case_log : forall lib, map rp_text (modem_log lib (new_parser false) [192; 0; 1; 4; 1; 0; 0; 72]) = [[52; 56]]
  /\ map rp_skipped (modem_log lib (new_parser false) [192; 0; 1; 4; 1; 0; 0; 72]) = [8].
Proof. intros [|]; vm_compute; auto. Qed.

(** In either mode the parser makes at most one attempt per byte and one per
    call, and an attempt computes the CRC of at most 255 bytes. *)
Theorem C89_attempts : forall lib chunks p, byte_in p -> Forall (Forall is_byte) chunks ->
  zlen (all_rounds lib p chunks) <= zlen (sp_buf p) + zlen (concat chunks) + zlen chunks
  /\ hashed (all_rounds lib p chunks) <= 255 * zlen (all_rounds lib p chunks).
Proof. exact all_effort. Qed.
Print Assumptions C89_attempts.
(** If ALP parsing is skipped and the chunks have at most [k] bytes, an attempt
    copies at most 261 + k bytes, and reports at most three characters for each. *)
Theorem C89_skip_mode : forall lib k chunks p, byte_in p -> Forall (Forall is_byte) chunks -> sp_skip p = true -> zlen (sp_buf p) <= 261 ->
  Forall (fun x => zlen x <= k) chunks -> 0 <= k ->
  copied (all_rounds lib p chunks) <= (261 + k) * zlen (all_rounds lib p chunks)
  /\ characters (all_rounds lib p chunks) <= 3 * (261 + k) * zlen (all_rounds lib p chunks).
Proof. exact skip_effort. Qed.
Print Assumptions C89_skip_mode.
(** For long chunks it is not linear: a call with n bytes copies at most n bytes
    in each of at most n attempts, *)
Theorem C89_one_call : forall lib p x q rs, byte_in p -> Forall is_byte x -> parse_rounds lib p x = (q, rs) ->
  zlen rs <= zlen (sp_buf p ++ x) /\ hashed rs <= 255 * zlen rs
  /\ copied rs <= zlen (sp_buf p ++ x) * zlen rs /\ characters rs <= 3 * zlen (sp_buf p ++ x) * zlen rs.
Proof. exact one_call. Qed.
Print Assumptions C89_one_call.
(** and n bytes 0xC0 need n(n+1)/2 copied bytes and return (3n^2+n-4)/2
    characters of error texts; *)
Theorem C89_linear_refuted : forall lib skip n, (0 < n)%nat ->
  exists res rs, snd (sparse lib (new_parser skip) (repeat 192 n)) = Ok res /\ snd (parse_rounds lib (new_parser skip) (repeat 192 n)) = rs
  /\ zlen rs = Z.of_nat n /\ 2 * copied rs = Z.of_nat n * (Z.of_nat n + 1)
  /\ 2 * fold_right (fun e a => zlen (rp_text e) + a) 0 (reports lib (new_parser skip) (repeat 192 n)) = 3 * Z.of_nat n * Z.of_nat n + Z.of_nat n - 4.
Proof. exact long_chunk. Qed.
Print Assumptions C89_linear_refuted.
(** nor in ALP mode, however small the chunks: behind one frame of 14 bytes n
    single bytes cost n(n+29)/2 copied bytes, and nothing is delivered or
    reported. *)
Theorem C89_alp_mode_refuted : forall lib c ys, is_byte c -> Forall is_byte ys -> zlen ys < 1073741823 ->
  let rs := all_rounds lib (new_parser false) (frame c 1 [4; 64; 0; 255; 255; 255; 255] :: map (fun b => [b]) ys) in
  2 * copied rs = 28 + zlen ys * (zlen ys + 29) /\ messages rs = [] /\ errors rs = [].
Proof. exact waiting_message. Qed.
Print Assumptions C89_alp_mode_refuted.

Example C89_case : forall lib,
  let rs := all_rounds lib (new_parser true) (map (fun b => [b]) mixed) in
  zlen rs = 22 /\ hashed rs = 3 /\ copied rs = 89 /\ characters rs = 27 /\ zlen mixed = 22.
Proof. intros [|]; vm_compute; repeat split. Qed.
