(** Specification for C95: what an error entry says about the cause. *)
From Coq Require Import String.
From Verif Require Export SReport MPhy MCause.
Open Scope list_scope.
Open Scope Z_scope.

(** what can be wrong with the first bytes of a message *)
Inductive Complaint :=
| NoSync (found : Z)
| OtherVersion (found : Z)
| WrongCrc (found1 found2 expected1 expected2 : Z).
(** when it is *)
Inductive complains : list Z -> Complaint -> Prop :=
| co_sync b r : b <> 192 -> complains (b :: r) (NoSync b)
| co_version v r : v <> 0 -> complains (192 :: v :: r) (OtherVersion v)
| co_crc c t h l payload r a b : calculate_crc payload = (a, b) -> (a, b) <> (h, l) ->
    complains (192 :: 0 :: c :: t :: zlen payload :: h :: l :: payload ++ r) (WrongCrc h l a b).
(** and how an entry says so: text and position in bits *)
Definition wording (c : Complaint) : string * nat :=
  (match c with
   | NoSync b => "expected 0xC0, found " ++ dec_str b
   | OtherVersion v => "Expected version 0, found " ++ dec_str v
   | WrongCrc h l a b => "CRC is incorrect found " ++ dec_str h ++ " " ++ dec_str l ++ " and expected " ++ dec_str a ++ " " ++ dec_str b
   end, match c with NoSync _ => 8 | OtherVersion _ => 16 | WrongCrc _ _ _ _ => 56 end%nat)%string.
Definition of_bytes (c : Complaint) : Prop :=
  match c with
  | NoSync b | OtherVersion b => is_byte b
  | WrongCrc h l a b => is_byte h /\ is_byte l /\ is_byte a /\ is_byte b
  end.
(** a round leaves one entry, with this "error" and "pos" *)
Definition says (r : Round) (c : Complaint) : Prop :=
  exists rp, report r = [rp] /\ entry r = [mkEntry (Some (wording c)) rp].
(** a round leaves one entry, and the ALP parser refused the payload of a whole
    frame with the right CRC *)
Definition blames_payload (r : Round) : Prop :=
  exists rp c t payload rest e, report r = [rp] /\ entry r = [mkEntry None rp]
  /\ ro_buffer r = frame c t payload ++ rest /\ t <> 4 /\ t <> 5
  /\ alp_parse (zlen payload) (St 56 (bytes_bits (payload ++ rest))) = Err e /\ rp_exn rp = e.
(** nothing is kept that does not begin like a message *)
Definition at_rest (p : SParser) : Prop := sp_buf p = [] \/ exists r, sp_buf p = 192 :: r.
(** number of entries that report a missing 0xC0 *)
Definition lost_sync (e : Entry) : bool := match en_header e with Some (_, 8%nat) => true | _ => false end.
