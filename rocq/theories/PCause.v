(** C95: what an error entry of the serial parser says about the cause. *)
From Coq Require Import String.
From Verif Require Import SCause LCause LCause2.
Open Scope list_scope.
Open Scope Z_scope.

(** The entries are the error reports of C88 with a text and a position. *)
Theorem C95_entries : forall lib p x, map en_report (entries lib p x) = reports lib p x.
Proof. exact entries_reports. Qed.
Print Assumptions C95_entries.
(** Every error has one of four causes: no 0xC0, another version, a wrong CRC,
    each said by the entry, with the bytes found and expected; or the ALP
    parser refused the payload of a frame whose CRC is right. *)
Theorem C95_cause : forall lib p x q rs r e n, byte_in p -> Forall is_byte x -> parse_rounds lib p x = (q, rs) -> In r rs -> ro_out r = Bad e n ->
  (e = ParseError /\ exists c, complains (ro_buffer r) c /\ of_bytes c /\ says r c) \/ (sp_skip p = false /\ blames_payload r).
Proof. exact cause_of. Qed.
Print Assumptions C95_cause.
(** Conversely, what is wrong is said, *)
Theorem C95_said : forall lib p x q rs r c, byte_in p -> Forall is_byte x -> parse_rounds lib p x = (q, rs) -> In r rs ->
  complains (ro_buffer r) c -> says r c.
Proof. exact complaint_said. Qed.
Print Assumptions C95_said.
(** only one thing is wrong, and the text and position tell which. *)
Theorem C95_one_cause : forall buf c d, complains buf c -> complains buf d -> c = d.
Proof. exact complains_once. Qed.
Print Assumptions C95_one_cause.
Theorem C95_readable : forall c d, of_bytes c -> of_bytes d -> wording c = wording d -> c = d.
Proof. exact wording_injective. Qed.
Print Assumptions C95_readable.
(** After every call, also one that raises, what is kept begins with 0xC0; *)
Theorem C95_at_rest : forall lib p x q r, byte_in p -> Forall is_byte x -> sparse lib p x = (q, r) -> at_rest q.
Proof. exact parse_at_rest. Qed.
Print Assumptions C95_at_rest.
(** so a missing 0xC0 is reported only directly after a message, or for the
    first byte received while nothing was kept: never twice for the same garbage. *)
Theorem C95_lost_sync : forall lib p x q rs i r b, byte_in p -> at_rest p -> Forall is_byte x -> parse_rounds lib p x = (q, rs) ->
  nth_error rs i = Some r -> says r (NoSync b) -> is_byte b ->
  (i = 0%nat /\ sp_buf p = [] /\ hd_error x = Some b)
  \/ exists j r' t m k, i = S j /\ nth_error rs j = Some r' /\ ro_out r' = Got t m k.
Proof. exact sync_reported. Qed.
Print Assumptions C95_lost_sync.
Theorem C95_lost_sync_count : forall lib p x q res, byte_in p -> at_rest p -> Forall is_byte x -> sparse lib p x = (q, Ok res) ->
  zlen (filter lost_sync (entries lib p x)) <= zlen (pr_msgs res) + (if sp_buf p then 1 else 0).
Proof. exact few_lost. Qed.
Print Assumptions C95_lost_sync_count.
(** The modem's log keeps the text and position. *)
Theorem C95_modem : forall lib p x, map en_header (modem_entries lib p x) = map en_header (entries lib p x)
  /\ map en_report (modem_entries lib p x) = modem_reports lib p x.
Proof. exact modem_entries_cause. Qed.
Print Assumptions C95_modem.

(** garbage; another version; a wrong CRC; a right frame with an unknown operation *)
Example C95_case : forall lib,
  map en_header (entries lib (new_parser false) ([17; 34] ++ [192; 7] ++ [192; 0; 1; 4; 1; 0; 255; 72] ++ frame 2 1 [63; 0])) =
  [Some ("expected 0xC0, found 17"%string, 8%nat); Some ("Expected version 0, found 7"%string, 16%nat);
   Some ("CRC is incorrect found 0 255 and expected 40 60"%string, 56%nat); None].
Proof. intros [|]; vm_compute; reflexivity. Qed.
