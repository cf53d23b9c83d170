(** C29: the level byte of a received status, whatever the other bytes are. *)
From Coq Require Import ZifyBool ZifyNat.
From Verif Require Import STypes LReject.

Lemma uint_app n l rest ps : length l = n ->
  read_uint n (St ps (l ++ rest)) = Ok (bits_val l, St (ps + n) rest).
Proof.
  intros L. unfold read_uint. cbn [bits pos]. rewrite app_length, L.
  destruct (Nat.ltb_spec (n + length rest) n); [lia|]. subst n. rewrite firstn_app, skipn_app, Nat.sub_diag, firstn_all, skipn_all.
  cbn [firstn skipn]. rewrite app_nil_r. reflexivity.
Qed.
(** the channel id takes 24 bits *)
Lemma cid_local h rest rest' ps : length h = 24%nat ->
  (exists c, cid_parse (St ps (h ++ rest)) = Ok (c, St (ps + 24) rest) /\ cid_parse (St ps (h ++ rest')) = Ok (c, St (ps + 24) rest'))
  \/ (exists e, cid_parse (St ps (h ++ rest)) = Err e /\ cid_parse (St ps (h ++ rest')) = Err e).
Proof.
  intros L.
  assert (C : forall n (l : list bool), (n <= length l)%nat -> exists a b, l = a ++ b /\ length a = n /\ length b = (length l - n)%nat).
  { intros n l H. exists (firstn n l), (skipn n l). rewrite firstn_skipn, firstn_length, skipn_length. repeat split; lia. }
  destruct (C 1%nat h) as (a & h1 & -> & La & L1); [lia|]. rewrite L in L1.
  destruct (C 3%nat h1) as (b & h2 & -> & Lb & L2); [lia|]. rewrite L1 in L2.
  destruct (C 2%nat h2) as (c & h3 & -> & Lc & L3); [lia|]. rewrite L2 in L3.
  destruct (C 2%nat h3) as (d & i & -> & Ld & Li); [lia|]. rewrite L3 in Li. cbn in Li. clear C.
  unfold cid_parse, ch_parse, bindp, lift, ret. rewrite <- !app_assoc.
  rewrite !(uint_app 1 a _ _ La), !(uint_app 3 b _ _ Lb).
  destruct (band_of (bits_val b)) as [ba|e]; [|right; exists e; auto].
  rewrite !(uint_app 2 c _ _ Lc). destruct (class_of (bits_val c)) as [cl|e]; [|right; exists e; auto].
  rewrite !(uint_app 2 d _ _ Ld). destruct (coding_of (bits_val d)) as [co|e]; [|right; exists e; auto].
  rewrite !(uint_app 16 i _ _ Li). destruct (mk_channel_id (mkCH co cl ba) (bits_val i)) as [x|e]; [|right; exists e; auto].
  left. exists x. replace (ps + 1 + 3 + 2 + 2 + 16)%nat with (ps + 24)%nat by lia. auto.
Qed.
Lemma int8_bits v rest ps : 0 <= v <= 255 ->
  read_int 8 (St ps (Zbits 8 v ++ rest)) = Ok (if v <? 128 then v else v - 256, St (ps + 8) rest).
Proof.
  intros R. unfold read_int, bindp, ret. rewrite (uint_app 8) by apply Zbits_length.
  rewrite bits_val_Zbits_small by (cbn; lia). reflexivity.
Qed.
Lemma high_level_any h v w rest ps : length h = 24%nat -> 128 <= v <= 255 -> 0 <= w <= 127 ->
  status_parse (St ps (h ++ Zbits 8 v ++ rest)) =
  match status_parse (St ps (h ++ Zbits 8 w ++ rest)) with Ok _ => Err ValueError | Err e => Err e end.
Proof.
  intros L V W. unfold status_parse, bindp at 1. unfold bindp at 13.
  destruct (cid_local h (Zbits 8 v ++ rest) (Zbits 8 w ++ rest) ps L) as [(c & -> & ->)|(e & -> & ->)]; [|reflexivity].
  unfold bindp at 1. unfold bindp at 12. rewrite !int8_bits by lia.
  destruct (Z.ltb_spec v 128); [lia|]. destruct (Z.ltb_spec w 128); [|lia].
  generalize (St (ps + 24 + 8) rest). intros s. unfold bindp.
  repeat match goal with |- context [match ?p with Ok _ => _ | Err _ => _ end] =>
    match p with read_uint _ _ => idtac | read_bool _ => idtac | read_pad _ _ => idtac | ct_parse _ => idtac | addr_parse _ => idtac end;
    destruct p as [[? ?]|?]; [|reflexivity] end.
  unfold lift, mk_status, validated.
  replace (is_BYTE (v - 256)) with false by (unfold is_BYTE, in_range; lia). cbn [andb].
  destruct (_ && _); reflexivity.
Qed.
