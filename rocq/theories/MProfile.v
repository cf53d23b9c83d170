(** d7a/dll/sub_profile.py and d7a/dll/access_profile.py *)
From Verif Require Import MBase MCt MPhy.

(** SubProfile, sub_profile.py:30-40 *)
Record SubProfile := mkSubProfile { sp_bitmap : Z; sp_period : CT }.
Definition mk_sub_profile (b : Z) (c : CT) : res SubProfile :=
  validated (is_BYTE b) (mkSubProfile b c).

(** SubProfile.parse, sub_profile.py:42-46 *)
Definition sp_parse : P SubProfile :=
  do b <- read_uint 8;
  do c <- ct_parse;
  lift (mk_sub_profile b c).

(** SubProfile.__iter__, sub_profile.py:48-50 *)
Definition sp_ser (p : SubProfile) : res (list Z) :=
  yield1 (sp_bitmap p) +++ ct_ser (sp_period p).

(** AccessProfile, access_profile.py:40-55 *)
Record AccessProfile := mkAP
  { ap_header : ChannelHeader; ap_profiles : list SubProfile; ap_bands : list SubBand }.
Definition mk_access_profile (h : ChannelHeader) (ps : list SubProfile) (bs : list SubBand)
  : res AccessProfile :=
  validated ((Nat.leb 4 (length ps)) && (Nat.leb (length ps) 4) && (Nat.leb (length bs) 8))
            (mkAP h ps bs).

(** [for _ in range(n): l.append(X.parse(s))] *)
Fixpoint read_n {A} (n : nat) (p : P A) : P (list A) :=
  match n with
  | O => ret []
  | S k => do x <- p; do r <- read_n k p; ret (x :: r)
  end.

(** AccessProfile.parse, access_profile.py:57-71 *)
Definition ap_parse : P AccessProfile :=
  do h <- ch_parse;
  do ps <- read_n 4 sp_parse;
  do bs <- read_n 8 sb_parse;
  lift (mk_access_profile h ps bs).

(** AccessProfile.__iter__, access_profile.py:73-79 *)
Definition ap_ser (a : AccessProfile) : res (list Z) :=
  ch_ser (ap_header a) +++ rconcat (map sp_ser (ap_profiles a))
  +++ rconcat (map sb_ser (ap_bands a)).
