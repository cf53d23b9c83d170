(** C96: what is sent after a value was changed in an object *)
From Verif Require Import SChange LChange.
Open Scope list_scope.
Open Scope Z_scope.

(** these are sent only with the values their constructor accepts: a value out
    of range raises when the object is serialized *)
Theorem C96_operands :
  refuses_bad len_wf length_ser /\ refuses_bad off_wf offset_ser /\ refuses_bad dr_wf dr_ser
  /\ refuses_bad (fun f => 0 <= fid_id f <= 255) fid_ser /\ refuses_bad tag_wf tag_ser
  /\ refuses_bad fho_wf fho_ser /\ refuses_bad query_wf query_ser
  /\ refuses_bad abp_wf abp_ser /\ refuses_bad otaa_wf otaa_ser.
Proof. exact (conj len_strict (conj off_strict (conj dr_strict (conj fid_strict (conj tag_strict (conj fho_strict (conj query_strict (conj abp_strict otaa_strict)))))))). Qed.
Print Assumptions C96_operands.
Theorem C96_files :
  refuses_bad fh_wf fh_ser /\ refuses_bad cid_wf cid_ser /\ refuses_bad sb_wf sb_ser
  /\ refuses_bad uid_wf uid_ser /\ refuses_bad vid_wf vid_ser /\ refuses_bad dc_wf dll_config_ser
  /\ refuses_bad ds_wf dll_status_ser /\ refuses_bad em_wf eng_ser.
Proof. exact (conj fh_strict (conj cid_strict (conj sb_strict (conj uid_strict (conj vid_strict (conj dc_strict (conj ds_strict em_strict))))))). Qed.
Print Assumptions C96_files.

(** a compressed time is sent whenever 32 * exp + mant is a byte, and then read
    back as the time of that byte: the same only within the ranges *)
Theorem C96_time : forall c bs, ct_ser c = Ok bs <->
  is_byte (32 * ct_exp c + ct_mant c) /\ bs = [32 * ct_exp c + ct_mant c].
Proof. exact ct_sent. Qed.
Print Assumptions C96_time.
Theorem C96_time_read : forall b, is_byte b -> accepts ct_parse (bytes_bits [b]) (ct_of_byte b).
Proof. exact ct_read. Qed.
Print Assumptions C96_time_read.
Theorem C96_time_same : forall c, let b := 32 * ct_exp c + ct_mant c in
  is_byte b -> (ct_of_byte b = c <-> ct_wf c).
Proof. exact ct_same. Qed.
Print Assumptions C96_time_same.

(** an addressee turned into a VID addressee, or with another VID, sends the
    low 16 bits of its id: the bytes address another node *)
Theorem C96_vid : forall a z, ad_id_type a = VID -> ad_id a = IdInt z ->
  (0 <= z < 2 ^ 64 -> addr_ser a = addr_ser (with_id a (z mod 65536)))
  /\ (~ (0 <= z < 2 ^ 64) -> forall bs, addr_ser a <> Ok bs).
Proof. exact addr_changed. Qed.
Print Assumptions C96_vid.
Theorem C96_uid : forall a z bs, ad_id_type a = UID -> ad_id a = IdInt z -> addr_ser a = Ok bs -> 0 <= z < 2 ^ 64.
Proof. exact addr_uid_strict. Qed.
Print Assumptions C96_uid.

(** a channel index always goes out, modulo 2048 *)
Theorem C96_index : forall c, let i := csi_index c mod 2048 in
  exists bs, csi_ser c = Ok bs
  /\ (i <= 1039 -> accepts csi_parse (bytes_bits bs) (with_index c i))
  /\ (1039 < i -> rejects csi_parse (bytes_bits bs) ValueError).
Proof. exact csi_change. Qed.
Print Assumptions C96_index.

(** replaced data keeps the old length: the reader takes that many bytes from
    the new data and whatever follows, and goes on after them *)
Theorem C96_data : forall o n data bs rest,
  data_ser (mkData o (mkLength n) data) = Ok bs -> Forall is_byte rest ->
  let all := data ++ rest in let k := Z.to_nat n in
  (zlen all < n -> data_parse (stream_of (bs ++ rest)) = Err ReadError)
  /\ (n <= zlen all -> exists p, data_parse (stream_of (bs ++ rest))
        = Ok (mkData o (mkLength n) (firstn k all), St p (bytes_bits (skipn k all)))).
Proof. exact data_changed. Qed.
Print Assumptions C96_data.
(** made empty and filled later: nothing is sent, not even the file and offset *)
Theorem C96_filled : forall o data, op_ser (WriteFileData (mkData o (mkLength 0) data)) = Ok []
  /\ forall f, op_ser (ReturnFileData (mkData o (mkLength 0) data) f) = Ok [].
Proof. exact data_filled. Qed.
Print Assumptions C96_filled.

(** within the ranges, changed or not, the objects are sent *)
Example C96_case :
  let o := mkOffset 64 (mkLength 0) in
  let write d := mkAction (Regular false false) (WriteFileData d) in
  let read i := mkAction (Regular false false) (ReadFileHeader (mkFileId i)) in
  let send d := command_ser (mkCommand [write d; read 7] None false (Some 5) false false None) in
  let parse bs := match alp_parse (zlen bs) (stream_of bs) with Ok (c, _) => Some (c_actions c) | Err _ => None end in
  let d := mkData o (mkLength 3) [1; 2; 3] in
  mk_data [1; 2; 3] o = Ok d
  /\ send d = Ok [4; 64; 0; 3; 1; 2; 3; 2; 7]
  /\ send (with_data d [9]) = Ok [4; 64; 0; 3; 9; 2; 7]
  /\ parse [4; 64; 0; 3; 9; 2; 7] = Some [write (mkData o (mkLength 3) [9; 2; 7])]
  /\ ct_ser (mkCT 0 32) = Ok [32] /\ ct_of_byte 32 = mkCT 1 0 /\ ct_ser (mkCT 8 0) = Err ValueError
  /\ (let a := mkAddr 0 VID (IdInt 4660) NLS_NONE in
      addr_ser a = Ok [48; 0; 18; 52] /\ addr_ser (with_id a 70196) = Ok [48; 0; 18; 52])
  /\ dr_ser (mkDataRequest o (mkLength 1073741824)) = Err ValueError.
Proof. vm_compute. repeat split. Qed.
Print Assumptions C96_case.
