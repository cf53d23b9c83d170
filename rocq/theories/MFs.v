(** d7a/fs: file permissions, file properties, file header *)
From Verif Require Import MBase.

(** FilePermissions, file_permissions.py:27-50.  Five schema keys are spelled
    "…writable"/"…executable" while the attributes are "…writeable"/
    "…executeable": not checked, but all fields are [bool] here. *)
Record FilePermissions := mkPerm
  { fp_encrypted : bool; fp_executable : bool;
    fp_user_r : bool; fp_user_w : bool; fp_user_x : bool;
    fp_guest_r : bool; fp_guest_w : bool; fp_guest_x : bool }.

(** FilePermissions.parse, file_permissions.py:52-64 *)
Definition perm_parse : P FilePermissions :=
  do a <- read_bool; do b <- read_bool; do c <- read_bool; do d <- read_bool;
  do e <- read_bool; do f <- read_bool; do g <- read_bool; do h <- read_bool;
  ret (mkPerm a b c d e f g h).

(** FilePermissions.__iter__, file_permissions.py:66-76 *)
Definition perm_ser (p : FilePermissions) : res (list Z) :=
  let add (c : bool) (v acc : Z) := if c then acc + v else acc in
  let byte := 0 in
  let byte := add (fp_encrypted p) (Z.shiftl 1 7) byte in
  let byte := add (fp_executable p) (Z.shiftl 1 6) byte in
  let byte := add (fp_user_r p) (Z.shiftl 1 5) byte in
  let byte := add (fp_user_w p) (Z.shiftl 1 4) byte in
  let byte := add (fp_user_x p) (Z.shiftl 1 3) byte in
  let byte := add (fp_guest_r p) (Z.shiftl 1 2) byte in
  let byte := add (fp_guest_w p) (Z.shiftl 1 1) byte in
  let byte := add (fp_guest_x p) 1 byte in
  yield1 byte.

(** file_properties.py:29-40 *)
Inductive ActionCondition := AC_LIST | AC_READ | AC_WRITE | AC_WRITE_FLUSH.
Definition actcond_value (a : ActionCondition) : Z :=
  match a with AC_LIST => 0 | AC_READ => 1 | AC_WRITE => 2 | AC_WRITE_FLUSH => 3 end.
Definition actcond_of (v : Z) : res ActionCondition :=
  if v =? 0 then Ok AC_LIST else if v =? 1 then Ok AC_READ
  else if v =? 2 then Ok AC_WRITE else if v =? 3 then Ok AC_WRITE_FLUSH else Err ValueError.
Inductive StorageClass := TRANSIENT | VOLATILE | RESTORABLE | PERMANENT.
Definition storage_value (a : StorageClass) : Z :=
  match a with TRANSIENT => 0 | VOLATILE => 1 | RESTORABLE => 2 | PERMANENT => 3 end.
Definition storage_of (v : Z) : res StorageClass :=
  if v =? 0 then Ok TRANSIENT else if v =? 1 then Ok VOLATILE
  else if v =? 2 then Ok RESTORABLE else if v =? 3 then Ok PERMANENT else Err ValueError.

(** FileProperties, file_properties.py:43-55 (schema key "act_cond" names no
    attribute; the field's type is fixed here) *)
Record FileProperties := mkProp
  { pr_enabled : bool; pr_cond : ActionCondition; pr_storage : StorageClass }.

(** FileProperties.parse, file_properties.py:57-63 *)
Definition prop_parse : P FileProperties :=
  do e <- read_bool;
  do v <- read_uint 3; do c <- lift (actcond_of v);
  do _ <- read_uint 2;
  do v <- read_uint 2; do s <- lift (storage_of v);
  ret (mkProp e c s).

(** FileProperties.__iter__, file_properties.py:65-70 *)
Definition prop_ser (p : FileProperties) : res (list Z) :=
  let byte := 0 in
  let byte := if pr_enabled p then byte + Z.shiftl 1 7 else byte in
  let byte := byte + Z.shiftl (actcond_value (pr_cond p)) 4 in
  let byte := byte + storage_value (pr_storage p) in
  yield1 byte.

(** FileHeader, file_header.py:31-48 *)
Record FileHeader := mkFH
  { fh_perm : FilePermissions; fh_prop : FileProperties;
    fh_alp_file : Z; fh_if_file : Z; fh_size : Z; fh_alloc : Z }.
Definition mk_fh (p : FilePermissions) (q : FileProperties) (a i s l : Z) : res FileHeader :=
  validated (is_BYTE a && is_BYTE i && in_range 0 4294967295 s && in_range 0 4294967295 l)
            (mkFH p q a i s l).

(** FileHeader.parse, file_header.py:50-58 *)
Definition fh_parse : P FileHeader :=
  do p <- perm_parse;
  do q <- prop_parse;
  do a <- read_uint 8;
  do i <- read_uint 8;
  do s <- read_uint 32;
  do l <- read_uint 32;
  lift (mk_fh p q a i s l).

(** FileHeader.__iter__, file_header.py:60-73 *)
Definition fh_ser (h : FileHeader) : res (list Z) :=
  perm_ser (fh_perm h) +++ prop_ser (fh_prop h)
  +++ yield1 (fh_alp_file h) +++ yield1 (fh_if_file h)
  +++ pack_be 4 (fh_size h) +++ pack_be 4 (fh_alloc h).
