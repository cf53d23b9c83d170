From Coq Require Import Lia.
From Verif Require Import MBase MCt MSp MOperands MAlp SShare LShare LShare2 LShare3.

Definition data_operand (h : Store) (id off : Z) (data : Ref) : made :=
  let! (h, l) := new_length h off in
  let! (h, o) := new_offset h id (Some l) in
  new_data h (Some data) (Some o).
Definition req_operand (h : Store) (id off len : Z) : made :=
  let! (h, l) := new_length h off in
  let! (h, o) := new_offset h id (Some l) in
  new_request h len (Some o).
Definition close (h : Store) (c : Ref) (o : OpRef) : made :=
  let! (h, a) := new_action h (Regular false false) o in
  let! h := append_action h c a in
  Ok (h, c).
Lemma make_write_eq h rnd id data off t conf :
  make_write h rnd id data off t conf =
  let! (h, c) := new_command h rnd None in
  let! h := forward_to h c t conf in
  let! (h, d) := data_operand h id off data in close h c (RWrite d).
Proof.
  unfold make_write, data_operand, close. destruct (new_command h rnd None) as [[h0 c]|]; [|reflexivity]. cbn [rbind].
  destruct (forward_to h0 c t conf) as [h1|]; [|reflexivity]. cbn [rbind].
  destruct (new_length h1 off) as [[h2 l]|]; [|reflexivity]. cbn [rbind].
  destruct (new_offset h2 id (Some l)) as [[h3 o]|]; reflexivity.
Qed.
Lemma make_read_eq h rnd id len off t conf :
  make_read h rnd id len off t conf =
  let! (h, c) := new_command h rnd None in
  let! h := forward_to h c t conf in
  let! (h, d) := req_operand h id off len in close h c (RRead d).
Proof.
  unfold make_read, req_operand, close. destruct (new_command h rnd None) as [[h0 c]|]; [|reflexivity]. cbn [rbind].
  destruct (forward_to h0 c t conf) as [h1|]; [|reflexivity]. cbn [rbind].
  destruct (new_length h1 off) as [[h2 l]|]; [|reflexivity]. cbn [rbind].
  destruct (new_offset h2 id (Some l)) as [[h3 o]|]; reflexivity.
Qed.
Lemma make_return_eq h rnd id data off tag t conf :
  make_return h rnd id data off tag t conf =
  let! (h, c) := new_command h rnd tag in
  let! h := forward_to h c t conf in
  let! (h, d) := data_operand h id off data in
  let! v := of_class (the_data h d) in close h c (RReturn d (try_parse_system_file v)).
Proof.
  unfold make_return, data_operand, close. destruct (new_command h rnd tag) as [[h0 c]|]; [|reflexivity]. cbn [rbind].
  destruct (forward_to h0 c t conf) as [h1|]; [|reflexivity]. cbn [rbind].
  destruct (new_length h1 off) as [[h2 l]|]; [|reflexivity]. cbn [rbind].
  destruct (new_offset h2 id (Some l)) as [[h3 o]|]; reflexivity.
Qed.

Lemma old_leaf n h o : nth_error h n = Some o -> parts o = [] -> forall m, old m h n (eq n).
Proof. intros E P m x _. rewrite (reaches_parts _ _ _ _ E), P. split; [intros [->|(p&[]&_)]; reflexivity|auto]. Qed.
Lemma the_len_new h l : the_len (h ++ [OLen l]) (length h) = Some l.
Proof. unfold the_len. now rewrite nth_new. Qed.
Lemma offset_chain h2 id off :
  match (let! (h, l) := new_length h2 off in new_offset h id (Some l)) with
  | Ok (h4, o) => exists lv ov, mk_length off = Ok lv /\ mk_offset id lv = Ok ov /\ the_off h4 o = Some ov /\ keep (length h2) h2 h4
      /\ (length h2 <= length h4)%nat /\ forall n, (n <= length h2)%nat -> old n h4 o (fun _ => False)
  | Err e => (let! l := mk_length off in mk_offset id l) = Err e
  end.
Proof.
  unfold new_length. destruct (mk_length off) as [lv|e]; cbn [rbind]; [|reflexivity]. cbn [put].
  unfold new_offset. cbn [given]. rewrite the_len_new. cbn [of_class rbind].
  destruct (mk_offset id lv) as [ov|e] eqn:EO; cbn [rbind]; [|reflexivity]. cbn [put].
  exists lv, ov. split; [reflexivity|]. split; [exact EO|].
  assert (OV : ov = mkOffset id lv) by (unfold mk_offset, validated in EO; destruct (is_BYTE id); [now injection EO as <-|discriminate]).
  split.
  - unfold the_off. rewrite nth_new. rewrite (the_len_le _ _ (le_put _ _) _ _ (the_len_new h2 lv)). now subst.
  - split; [rewrite <- app_assoc; apply keep_app; lia|]. split; [rewrite !app_length; lia|].
    intros n N. apply (old_one _ _ _ (length h2)); [rewrite app_length; lia|reflexivity| |now apply old_none].
    eapply (agree_valid the_len); [apply len_valid|apply the_len_new|apply le_put].
Qed.
Lemma data_chain h h2 id off data bs : keep (length h) h h2 -> the_bytes h data = Some bs ->
  match data_operand h2 id off data with
  | Ok (h5, d) => exists dv, (let! l := mk_length off in let! o := mk_offset id l in mk_data bs o) = Ok dv
      /\ the_data h5 d = Some dv /\ keep (length h2) h2 h5 /\ old (length h) h5 d (eq data)
  | Err e => (let! l := mk_length off in let! o := mk_offset id l in mk_data bs o) = Err e
  end.
Proof.
  intros K B. pose proof (offset_chain h2 id off) as X.
  unfold data_operand. destruct (new_length h2 off) as [[h3 l]|]; cbn [rbind] in *.
  2: { destruct (mk_length off) as [lv|]; cbn [rbind] in *; [now rewrite X|]. injection X as ->. reflexivity. }
  destruct (new_offset h3 id (Some l)) as [[h4 o]|]; cbn [rbind] in *.
  2: { destruct (mk_length off) as [lv|]; cbn [rbind] in *; [now rewrite X|]. injection X as ->. reflexivity. }
  destruct X as (lv&ov&EL&EO&VO&K4&L4&O4). rewrite EL. cbn [rbind]. rewrite EO. cbn [rbind].
  assert (LE : le h h4).
  { apply le_keep. eapply keep_trans; [exact K|]. destruct K as [K _]. destruct K4 as [K4 K4']. split; [exact K4|]. intros r Hr. apply K4'; lia. }
  pose proof (the_bytes_le _ _ LE _ _ B) as B4.
  unfold new_data. cbn [given]. rewrite B4, VO. cbn [of_class rbind].
  destruct (mk_data bs ov) as [dv|e] eqn:MD; cbn [rbind]; [|reflexivity]. cbn [put].
  exists dv. split; [reflexivity|]. set (h5 := h4 ++ [OLen (d_length dv)]). set (ob := OData o (length h4) data).
  assert (DV : dv = mkData ov (d_length dv) bs).
  { unfold mk_data in MD. destruct (mk_length (zlen bs)) as [q|]; cbn [rbind] in MD; [|discriminate]. unfold validated in MD.
    destruct (forallb is_BYTE bs); [|discriminate]. now injection MD as <-. }
  assert (V5 : the_off h5 o = Some ov) by (apply (the_off_le _ _ (le_put _ _) _ _ VO)).
  assert (N5 : the_len h5 (length h4) = Some (d_length dv)) by apply the_len_new.
  assert (B5 : the_bytes h5 data = Some bs) by (apply (the_bytes_le _ _ (le_put _ _) _ _ B4)).
  assert (Lh : (length h <= length h4)%nat) by (destruct K; lia).
  split; [|split].
  - unfold the_data. rewrite nth_new. unfold ob at 1.
    rewrite (the_off_le _ _ (le_put _ _) _ _ V5), (the_len_le _ _ (le_put _ _) _ _ N5), (the_bytes_le _ _ (le_put _ _) _ _ B5).
    now rewrite DV.
  - eapply keep_trans; [exact K4|]. unfold h5. rewrite <- app_assoc. apply keep_app. lia.
  - apply (old_new (length h)).
    + unfold h5. rewrite app_length. lia.
    + cbn [parts]. intros p [<-|[<-|[<-|[]]]].
      * exists (fun _ => False). split; [|intros ? _ []].
        apply (old_agree _ h4); [|apply O4; destruct K; lia].
        eapply (agree_valid the_off); [apply off_valid|exact VO|]. unfold h5. rewrite <- app_assoc. apply le_put.
      * exists (fun _ => False). split; [|intros ? _ []]. apply (old_agree _ h5); [|apply old_none; [exact Lh|reflexivity]].
        eapply (agree_valid the_len); [apply len_valid|exact N5|apply le_put].
      * exists (eq data). split; [|auto].
        pose proof (the_bytes_le _ _ (le_put h5 [ob]) _ _ B5) as B6. unfold the_bytes in B6.
        destruct (nth_error (h5 ++ [ob]) data) as [x|] eqn:E6; [|discriminate]. apply (old_leaf _ _ x E6).
        destruct x; try discriminate B6; reflexivity.
    + intros x Hx <-. exists data. split; [unfold ob; cbn; auto|constructor].
Qed.
Lemma req_chain h h2 id off len : keep (length h) h h2 ->
  match req_operand h2 id off len with
  | Ok (h5, d) => exists dv, (let! l := mk_length off in let! o := mk_offset id l in mk_data_request len o) = Ok dv
      /\ the_req h5 d = Some dv /\ keep (length h2) h2 h5 /\ old (length h) h5 d (fun _ => False)
  | Err e => (let! l := mk_length off in let! o := mk_offset id l in mk_data_request len o) = Err e
  end.
Proof.
  intros K. pose proof (offset_chain h2 id off) as X.
  unfold req_operand. destruct (new_length h2 off) as [[h3 l]|]; cbn [rbind] in *.
  2: { destruct (mk_length off) as [lv|]; cbn [rbind] in *; [now rewrite X|]. injection X as ->. reflexivity. }
  destruct (new_offset h3 id (Some l)) as [[h4 o]|]; cbn [rbind] in *.
  2: { destruct (mk_length off) as [lv|]; cbn [rbind] in *; [now rewrite X|]. injection X as ->. reflexivity. }
  destruct X as (lv&ov&EL&EO&VO&K4&L4&O4). rewrite EL. cbn [rbind]. rewrite EO. cbn [rbind].
  unfold new_request. cbn [given]. rewrite VO. cbn [of_class rbind].
  destruct (mk_data_request len ov) as [dv|e] eqn:MD; cbn [rbind]; [|reflexivity]. cbn [put].
  exists dv. split; [reflexivity|]. set (h5 := h4 ++ [OLen (dr_length dv)]). set (ob := OReq o (length h4)).
  assert (DV : dv = mkDataRequest ov (dr_length dv)).
  { unfold mk_data_request in MD. destruct (mk_length len) as [q|]; cbn [rbind] in MD; [|discriminate]. now injection MD as <-. }
  assert (V5 : the_off h5 o = Some ov) by (apply (the_off_le _ _ (le_put _ _) _ _ VO)).
  assert (N5 : the_len h5 (length h4) = Some (dr_length dv)) by apply the_len_new.
  assert (Lh : (length h <= length h4)%nat) by (destruct K; lia).
  split; [|split].
  - unfold the_req. rewrite nth_new. unfold ob at 1.
    rewrite (the_off_le _ _ (le_put _ _) _ _ V5), (the_len_le _ _ (le_put _ _) _ _ N5). now rewrite DV.
  - eapply keep_trans; [exact K4|]. unfold h5. rewrite <- app_assoc. apply keep_app. lia.
  - apply (old_new (length h)).
    + unfold h5. rewrite app_length. lia.
    + cbn [parts]. intros p [<-|[<-|[]]].
      * exists (fun _ => False). split; [|auto].
        apply (old_agree _ h4); [|apply O4; destruct K; lia].
        eapply (agree_valid the_off); [apply off_valid|exact VO|]. unfold h5. rewrite <- app_assoc. apply le_put.
      * exists (fun _ => False). split; [|auto]. apply (old_agree _ h5); [|apply old_none; [exact Lh|reflexivity]].
        eapply (agree_valid the_len); [apply len_valid|exact N5|apply le_put].
    + intros x Hx [].
Qed.

Lemma close_spec h h2 h5 c v S o ov T : is_cmd h h2 c v S -> keep (length h2) h2 h5 -> the_op h5 o = Some ov ->
  (forall p, In p (op_parts o) -> old (length h) h5 p T) -> op_parts o <> [] ->
  (forall p, In p (op_parts o) -> agree h5 (h5 ++ [OAct (Regular false false) o]) p) ->
  exists h6, close h5 c o = Ok (h6, c) /\ is_cmd h h6 c (add_action v (mkAction (Regular false false) ov)) (fun x => S x \/ T x).
Proof.
  intros C K V OP NE AG. unfold close. rewrite (new_regular _ _ _ V). cbn [rbind].
  pose proof (is_cmd_keep _ _ _ _ _ _ C K) as C5.
  destruct (is_cmd_append h (h5 ++ [OAct (Regular false false) o]) c v S (length h5) (mkAction (Regular false false) ov) T) as (h6&->&I6).
  - eapply is_cmd_keep; [exact C5|]. apply keep_app; lia.
  - now apply action_value.
  - destruct (op_parts o) as [|p [|? ?]] eqn:P; [congruence| |destruct o; discriminate].
    apply (old_one _ _ _ p); [destruct (ic_keep _ _ _ _ _ C5); lia|cbn [parts]; exact P|apply AG; now left|apply OP; now left].
  - cbn [rbind]. exists h6. auto.
Qed.

Lemma factory_spec h rnd tag t conf cv (operand : Store -> made) (op : Ref -> Store -> res OpRef) (typed : res Operation) T
  (W : forall h2, keep (length h) h h2 -> (length h <= length h2)%nat ->
     match (let! (h5, d) := operand h2 in let! o := op d h5 in Ok (h5, o)) with
     | Ok (h5, o) => exists ov, typed = Ok ov /\ the_op h5 o = Some ov /\ keep (length h2) h2 h5 /\ op_parts o <> []
         /\ (forall p, In p (op_parts o) -> old (length h) h5 p T /\ agree h5 (h5 ++ [OAct (Regular false false) o]) p)
     | Err e => typed = Err e
     end) :
  conf_arg h t conf cv ->
  match (let! (h, c) := new_command h rnd tag in let! h := forward_to h c t conf in
         let! (h, d) := operand h in let! o := op d h in close h c o) with
  | Ok (h', c) => exists cmd, factory rnd tag t cv typed = Ok cmd /\ the_command h' c = Some cmd
      /\ (forall x, (x < length h)%nat -> (reaches h' c x <-> conf_parts h t conf x \/ T x))
  | Err e => factory rnd tag t cv typed = Err e
  end.
Proof.
  intros CA. unfold factory, new_command.
  set (c0 := mkCommand [] None true (match tag with Some x => Some x | None => Some rnd end) true false None).
  assert (MC : mk_command rnd [] true tag true = Ok c0) by (destruct tag; reflexivity).
  rewrite MC. cbn [rbind put].
  assert (C0 : is_cmd h (h ++ [OCmd [] c0]) (length h) c0 (fun _ => False)).
  { split; [unfold the_command; rewrite nth_new; reflexivity|now apply old_none|apply keep_app; lia|lia]. }
  pose proof (forward_spec _ _ _ _ _ _ _ _ C0 CA) as F.
  destruct (forward_to (h ++ [OCmd [] c0]) (length h) t conf) as [h2|e]; cbn [rbind].
  2: { now rewrite F. }
  destruct F as (v&->&C2). cbn [rbind]. specialize (W h2 (ic_keep _ _ _ _ _ C2) (proj1 (keep_trans _ _ _ _ (keep_refl _ _) (ic_keep _ _ _ _ _ C2)))).
  destruct (operand h2) as [[h5 d]|e]; cbn [rbind] in *; [|now rewrite W].
  destruct (op d h5) as [o|e]; cbn [rbind] in *; [|now rewrite W].
  destruct W as (ov&->&V&K&NE&OP). cbn [rbind].
  destruct (close_spec h h2 h5 (length h) v _ o ov T C2 K V (fun p I => proj1 (OP p I)) NE (fun p I => proj2 (OP p I))) as (h6&->&C6).
  destruct C6 as [V6 O6 K6 N6]. exists (add_action v (mkAction (Regular false false) ov)).
  split; [reflexivity|]. split; [exact V6|]. intros x Hx. rewrite (O6 x Hx). tauto.
Qed.

Theorem write_spec h rnd id data bs off t conf cv : the_bytes h data = Some bs -> conf_arg h t conf cv ->
  match make_write h rnd id data off t conf with
  | Ok (h', c) => exists cmd, create_write rnd id bs off t cv = Ok cmd /\ the_command h' c = Some cmd
      /\ (forall x, (x < length h)%nat -> (reaches h' c x <-> conf_parts h t conf x \/ data = x))
  | Err e => create_write rnd id bs off t cv = Err e
  end.
Proof.
  intros B CA. rewrite make_write_eq. unfold create_write.
  apply (factory_spec h rnd None t conf cv (fun h => data_operand h id off data) (fun d _ => Ok (RWrite d))); [|exact CA].
  intros h2 K _. pose proof (data_chain h h2 id off data bs K B) as D.
  destruct (data_operand h2 id off data) as [[h5 d]|e]; cbn [rbind].
  - destruct D as (dv&E&V&K5&O5). exists (WriteFileData dv). split.
    { destruct (mk_length off); cbn [rbind] in *; [|discriminate]. destruct (mk_offset id a); cbn [rbind] in *; [|discriminate]. now rewrite E. }
    split; [cbn [the_op]; now rewrite V|]. split; [exact K5|]. split; [discriminate|]. intros p [<-|[]]. split; [exact O5|].
    eapply (agree_valid the_data); [apply data_valid|exact V|apply le_put].
  - destruct (mk_length off); cbn [rbind] in *; [|injection D as ->; reflexivity]. destruct (mk_offset id a); cbn [rbind] in *; [|injection D as ->; reflexivity]. now rewrite D.
Qed.
Theorem return_spec h rnd id data bs off tag t conf cv : the_bytes h data = Some bs -> conf_arg h t conf cv ->
  match make_return h rnd id data off tag t conf with
  | Ok (h', c) => exists cmd, create_return rnd id bs off tag t cv = Ok cmd /\ the_command h' c = Some cmd
      /\ (forall x, (x < length h)%nat -> (reaches h' c x <-> conf_parts h t conf x \/ data = x))
  | Err e => create_return rnd id bs off tag t cv = Err e
  end.
Proof.
  intros B CA. rewrite make_return_eq. unfold create_return.
  pose proof (factory_spec h rnd tag t conf cv (fun h => data_operand h id off data)
    (fun d h => let! v := of_class (the_data h d) in Ok (RReturn d (try_parse_system_file v)))
    (let! l := mk_length off in let! o := mk_offset id l in let! d := mk_data bs o in Ok (mk_return_file_data d)) (eq data)) as F.
  match type of F with ?P -> _ => assert (W : P) end.
  { intros h2 K _. pose proof (data_chain h h2 id off data bs K B) as D.
    destruct (data_operand h2 id off data) as [[h5 d]|e]; cbn [rbind].
    - destruct D as (dv&E&V&K5&O5). rewrite V. cbn [of_class rbind]. exists (mk_return_file_data dv). split.
      { destruct (mk_length off); cbn [rbind] in *; [|discriminate]. destruct (mk_offset id a); cbn [rbind] in *; [|discriminate]. now rewrite E. }
      split; [cbn [the_op]; now rewrite V|]. split; [exact K5|]. split; [discriminate|]. intros p [<-|[]]. split; [exact O5|].
      eapply (agree_valid the_data); [apply data_valid|exact V|apply le_put].
    - destruct (mk_length off); cbn [rbind] in *; [|injection D as ->; reflexivity]. destruct (mk_offset id a); cbn [rbind] in *; [|injection D as ->; reflexivity]. now rewrite D. }
  specialize (F W CA).
  match type of F with match ?X with _ => _ end => match goal with |- match ?Y with _ => _ end => replace Y with X; [exact F|] end end.
  destruct (new_command h rnd tag) as [[h0 c]|]; [|reflexivity]. cbn [rbind].
  destruct (forward_to h0 c t conf) as [h1|]; [|reflexivity]. cbn [rbind].
  destruct (data_operand h1 id off data) as [[h5 d]|]; [|reflexivity]. cbn [rbind].
  destruct (of_class (the_data h5 d)); reflexivity.
Qed.
Theorem read_spec h rnd id len off t conf cv : conf_arg h t conf cv ->
  match make_read h rnd id len off t conf with
  | Ok (h', c) => exists cmd, create_read rnd id len off t cv = Ok cmd /\ the_command h' c = Some cmd
      /\ (forall x, (x < length h)%nat -> (reaches h' c x <-> conf_parts h t conf x))
  | Err e => create_read rnd id len off t cv = Err e
  end.
Proof.
  intros CA. rewrite make_read_eq. unfold create_read.
  pose proof (factory_spec h rnd None t conf cv (fun h => req_operand h id off len) (fun d _ => Ok (RRead d))
    (let! l := mk_length off in let! o := mk_offset id l in let! d := mk_data_request len o in Ok (ReadFileData d)) (fun _ => False)) as F.
  match type of F with ?P -> _ => assert (W : P) end.
  { intros h2 K _. pose proof (req_chain h h2 id off len K) as D.
    destruct (req_operand h2 id off len) as [[h5 d]|e]; cbn [rbind].
    - destruct D as (dv&E&V&K5&O5). exists (ReadFileData dv). split.
      { destruct (mk_length off); cbn [rbind] in *; [|discriminate]. destruct (mk_offset id a); cbn [rbind] in *; [|discriminate]. now rewrite E. }
      split; [cbn [the_op]; now rewrite V|]. split; [exact K5|]. split; [discriminate|]. intros p [<-|[]]. split; [exact O5|].
      eapply (agree_valid the_req); [apply req_valid|exact V|apply le_put].
    - destruct (mk_length off); cbn [rbind] in *; [|injection D as ->; reflexivity]. destruct (mk_offset id a); cbn [rbind] in *; [|injection D as ->; reflexivity]. now rewrite D. }
  specialize (F W CA). cbn [rbind] in F.
  destruct (let! (h, c) := new_command h rnd None in _) as [[h' c]|e]; [|exact F].
  destruct F as (cmd&F1&F2&F3). exists cmd. split; [exact F1|]. split; [exact F2|]. intros x Hx. rewrite (F3 x Hx). tauto.
Qed.
