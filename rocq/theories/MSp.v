(** d7a/d7anp/addressee.py, d7a/sp/qos.py, d7a/sp/configuration.py, d7a/sp/status.py *)
From Verif Require Import MBase MCt MPhy.

(** ** Addressee *)

(** IdType, addressee.py:36-40 *)
Inductive IdType := NBID | NOID | UID | VID.
Definition idtype_value (t : IdType) : Z :=
  match t with NBID => 0 | NOID => 1 | UID => 2 | VID => 3 end.
Definition idtype_of (v : Z) : res IdType :=
  if v =? 0 then Ok NBID else if v =? 1 then Ok NOID
  else if v =? 2 then Ok UID else if v =? 3 then Ok VID else Err ValueError.

(** NlsMethod, addressee.py:42-50 *)
Inductive NlsMethod := NLS_NONE | AES_CTR | AES_CBC_MAC_128 | AES_CBC_MAC_64
  | AES_CBC_MAC_32 | AES_CCM_128 | AES_CCM_64 | AES_CCM_32.
Definition nls_value (m : NlsMethod) : Z :=
  match m with NLS_NONE => 0 | AES_CTR => 1 | AES_CBC_MAC_128 => 2 | AES_CBC_MAC_64 => 3
  | AES_CBC_MAC_32 => 4 | AES_CCM_128 => 5 | AES_CCM_64 => 6 | AES_CCM_32 => 7 end.
Definition nls_of (v : Z) : res NlsMethod :=
  if v =? 0 then Ok NLS_NONE else if v =? 1 then Ok AES_CTR
  else if v =? 2 then Ok AES_CBC_MAC_128 else if v =? 3 then Ok AES_CBC_MAC_64
  else if v =? 4 then Ok AES_CBC_MAC_32 else if v =? 5 then Ok AES_CCM_128
  else if v =? 6 then Ok AES_CCM_64 else if v =? 7 then Ok AES_CCM_32
  else Err ValueError.

(** The Python value of the [id] attribute: [None], an integer or a [CT]. *)
Inductive AddrId := IdNone | IdInt (z : Z) | IdCT (c : CT).

Record Addressee := mkAddr
  { ad_access_class : Z; ad_id_type : IdType; ad_id : AddrId; ad_nls : NlsMethod }.

(** SCHEMA, addressee.py:60-89: exactly one alternative applies, selected by
    [id_type] *)
Definition addr_id_ok (t : IdType) (i : AddrId) : bool :=
  match t, i with
  | NBID, IdCT _ => true
  | NOID, IdNone => true
  | VID, IdInt z => in_range 0 65535 z
  | UID, IdInt z => in_range 0 18446744073709551615 z
  | _, _ => false
  end.

(** Addressee.__init__, addressee.py:101-106 *)
Definition mk_addr (ac : Z) (t : IdType) (i : AddrId) (m : NlsMethod) : res Addressee :=
  validated (is_BYTE ac && addr_id_ok t i) (mkAddr ac t i m).

(** default arguments, addressee.py:101 *)
Definition addr_default : Addressee := mkAddr 0 NOID IdNone NLS_NONE.

(** Addressee.length_for, addressee.py:112-117 *)
Definition addr_id_length (t : IdType) : nat :=
  match t with NBID => 1 | NOID => 0 | VID => 2 | UID => 8 end.

(** Addressee.parse, addressee.py:119-130 *)
Definition addr_parse : P Addressee :=
  do _ <- read_pad 2;
  do v <- read_uint 2; do t <- lift (idtype_of v);
  do v <- read_uint 4; do m <- lift (nls_of v);
  do cl <- read_uint 8;
  let l := addr_id_length t in
  do i <- (if Nat.ltb 0 l then do v <- read_uint (l * 8); ret (IdInt v) else ret IdNone);
  do i <- (match t, i with
           | NBID, IdInt v => do c <- lift (ct_compress v true);
                              ret (match c with Some c => IdCT c | None => IdNone end)
           | _, _ => ret i
           end);
  lift (mk_addr cl t i m).

(** Addressee.__iter__, addressee.py:132-146.  [struct.pack(">Q", None)] is a
    [struct.error], [None.compressed_value] an [AttributeError]; neither can
    happen for an accepted object. *)
Definition addr_ser (a : Addressee) : res (list Z) :=
  yield1 (Z.lor 0 (Z.shiftl (idtype_value (ad_id_type a)) 4) + nls_value (ad_nls a))
  +++ yield1 (ad_access_class a)
  +++ (let l := addr_id_length (ad_id_type a) in
       if Nat.ltb 0 l then
         let! v := (match ad_id_type a, ad_id a with
                    | NBID, IdCT c => Ok (ct_compressed c)
                    | NBID, _ => Err AttributeError
                    | _, IdInt z => Ok z
                    | _, _ => Err StructError
                    end) in
         let! bs := pack_be 8 v in
         Ok (skipn (8 - l) bs)
       else Ok []).

(** ** QoS, qos.py:31-55 *)
Inductive ResponseMode := RESP_NO | RESP_ALL | RESP_ANY | RESP_NO_RPT | RESP_ON_ERROR | RESP_PREFERRED.
Definition resp_value (m : ResponseMode) : Z :=
  match m with RESP_NO => 0 | RESP_ALL => 1 | RESP_ANY => 2 | RESP_NO_RPT => 4
  | RESP_ON_ERROR => 5 | RESP_PREFERRED => 6 end.
Definition resp_of (v : Z) : res ResponseMode :=
  if v =? 0 then Ok RESP_NO else if v =? 1 then Ok RESP_ALL else if v =? 2 then Ok RESP_ANY
  else if v =? 4 then Ok RESP_NO_RPT else if v =? 5 then Ok RESP_ON_ERROR
  else if v =? 6 then Ok RESP_PREFERRED else Err ValueError.
Inductive RetryMode := RETRY_NO.
Definition retry_value (m : RetryMode) : Z := match m with RETRY_NO => 0 end.
Definition retry_of (v : Z) : res RetryMode := if v =? 0 then Ok RETRY_NO else Err ValueError.

Record QoS := mkQoS
  { q_resp : ResponseMode; q_retry : RetryMode; q_stop : bool; q_record : bool }.
Definition qos_default : QoS := mkQoS RESP_NO RETRY_NO false false.

(** QoS.__iter__, qos.py:57-63 *)
Definition qos_ser (q : QoS) : res (list Z) :=
  let byte := 0 in
  let byte := if q_stop q then Z.lor byte (Z.shiftl 1 7) else byte in
  let byte := if q_record q then Z.lor byte (Z.shiftl 1 6) else byte in
  let byte := Z.lor byte (Z.shiftl (retry_value (q_retry q)) 3) in
  yield1 (byte + resp_value (q_resp q)).

(** QoS.parse, qos.py:65-71 *)
Definition qos_parse : P QoS :=
  do st <- read_bool;
  do rec <- read_bool;
  do v <- read_uint 3; do retry <- lift (retry_of v);
  do v <- read_uint 3; do resp <- lift (resp_of v);
  ret (mkQoS resp retry st rec).

(** ** Configuration, configuration.py:37-64 *)
Record Configuration := mkConf { cf_qos : QoS; cf_dorm_to : CT; cf_addressee : Addressee }.
Definition conf_default : Configuration := mkConf qos_default (mkCT 0 0) addr_default.

Definition conf_ser (c : Configuration) : res (list Z) :=
  qos_ser (cf_qos c) +++ ct_ser (cf_dorm_to c) +++ addr_ser (cf_addressee c).

Definition conf_parse : P Configuration :=
  do q <- qos_parse;
  do d <- ct_parse;
  do a <- addr_parse;
  ret (mkConf q d a).

(** ** Status, status.py:54-85.  The schema key "ucast" names no attribute
    (the attribute is "unicast"), so [unicast] is not checked; its type is
    fixed to [bool] here. *)
Record Status := mkStatus
  { st_channel_id : ChannelID; st_rx_level : Z; st_link_budget : Z; st_target_rx_level : Z;
    st_nls : bool; st_missed : bool; st_retry : bool; st_unicast : bool;
    st_fifo_token : Z; st_seq_nr : Z; st_response_to : CT; st_addressee : Addressee }.

Definition mk_status (cid : ChannelID) (rx lb trx : Z) (nls missed retry unicast : bool)
  (fifo seq : Z) (rto : CT) (a : Addressee) : res Status :=
  validated (is_BYTE rx && is_BYTE lb && is_BYTE trx && is_BYTE fifo && is_BYTE seq)
    (mkStatus cid rx lb trx nls missed retry unicast fifo seq rto a).

(** Status.parse, status.py:88-108 *)
Definition status_parse : P Status :=
  do cid <- cid_parse;
  do rx <- read_int 8;
  do lb <- read_uint 8;
  do trx <- read_uint 8;
  do nls <- read_bool;
  do missed <- read_bool;
  do retry <- read_bool;
  do unicast <- read_bool;
  do _ <- read_pad 4;
  do fifo <- read_uint 8;
  do seq <- read_uint 8;
  do rto <- ct_parse;
  do a <- addr_parse;
  lift (mk_status cid rx lb trx nls missed retry unicast fifo seq rto a).

(** Status.__iter__, status.py:110-124; [chr] raises [ValueError] outside 0..255 *)
Definition status_ser (s : Status) : res (list Z) :=
  cid_ser (st_channel_id s)
  +++ yield1 (st_rx_level s) +++ yield1 (st_link_budget s) +++ yield1 (st_target_rx_level s)
  +++ (let byte := 0 in
       let byte := if st_nls s then Z.lor byte (Z.shiftl 1 7) else byte in
       let byte := if st_missed s then Z.lor byte (Z.shiftl 1 6) else byte in
       let byte := if st_retry s then Z.lor byte (Z.shiftl 1 5) else byte in
       let byte := if st_unicast s then Z.lor byte (Z.shiftl 1 4) else byte in
       yield1 byte)
  +++ yield1 (st_fifo_token s) +++ yield1 (st_seq_nr s)
  +++ ct_ser (st_response_to s) +++ addr_ser (st_addressee s).
