(** Commands: constructor, serialization, parsing. *)
From Coq Require Import ZifyBool ZifyNat.
From Verif Require Export SCommand LAction.
Ltac Zify.zify_post_hook ::= Z.div_mod_to_equations.

(** ** The constructor loop *)
Lemma filter_snoc {A} f (l : list A) x : filter f (l ++ [x]) = filter f l ++ (if f x then [x] else []).
Proof. rewrite filter_app. reflexivity. Qed.
Lemma hd_error_app {A} (l r : list A) : hd_error (l ++ r) = match hd_error l with Some x => Some x | None => hd_error r end.
Proof. destruct l; reflexivity. Qed.

Lemma status_kind a : is_status a = true -> a_kind a = StatusAct 1.
Proof. unfold is_status. destruct (a_kind a); try discriminate. intros H. f_equal. lia. Qed.

Lemma command_of_status g t r l : c_status (command_of g t r l) = hd_error (filter is_status l).
Proof. unfold command_of. destruct (match filter is_tag l with [] => _ | _ :: _ => _ end) as [[[? ?] ?] ?]. reflexivity. Qed.
Lemma command_of_actions g t r l : c_actions (command_of g t r l) = filter plain l.
Proof. unfold command_of. destruct (match filter is_tag l with [] => _ | _ :: _ => _ end) as [[[? ?] ?] ?]. reflexivity. Qed.
Lemma filter_hd {A} f (l : list A) a r : filter f l = a :: r -> f a = true /\ In a l.
Proof.
  intros E. assert (I : In a (filter f l)) by (rewrite E; left; reflexivity).
  apply filter_In in I. tauto.
Qed.
Lemma command_of_tag g t r l : Forall tag_typed l ->
  c_tag (command_of g t r l) = None <-> filter is_tag l = [] /\ t = None.
Proof.
  intros F. unfold command_of. destruct (filter is_tag l) as [|a l'] eqn:E.
  - cbn [c_tag]. tauto.
  - destruct (filter_hd _ _ _ _ E) as [T I]. rewrite Forall_forall in F.
    specialize (F a I T). unfold is_tag in T.
    destruct (a_kind a); try discriminate; cbn [c_tag]; split; try contradiction; intros [? _]; discriminate.
Qed.

(** may the action [a] follow the actions [p] *)
Definition may_follow (tag0 : option Z) (p : list Action) (a : Action) : bool :=
  negb (is_tag a && negb (match tag0 with None => true | Some _ => false end && (length (filter is_tag p) =? 0)%nat))
  && negb (is_status a && negb (length (filter is_status p) =? 0)%nat).
Lemma add_init_spec g t r p a : Forall tag_typed p -> tag_typed a ->
  add_init (command_of g t r p) a =
  if may_follow t p a then Ok (command_of g t r (p ++ [a])) else Err ParseError.
Proof.
  intros Fp Fa. unfold may_follow.
  assert (Pl : forall b, is_tag a = false -> is_status a = false -> b = add_init (command_of g t r p) a ->
    b = Ok (mkCommand (filter plain p ++ [a]) (c_status (command_of g t r p)) (c_generate (command_of g t r p))
            (c_tag (command_of g t r p)) (c_respond (command_of g t r p)) (c_completed (command_of g t r p))
            (c_error (command_of g t r p))) ->
    b = Ok (command_of g t r (p ++ [a]))).
  { intros b T S _ ->. f_equal. unfold command_of. rewrite !filter_snoc, T, S.
    assert (PP : plain a = true) by (unfold plain; rewrite T, S; reflexivity). rewrite PP.
    rewrite !app_nil_r.
    destruct (match filter is_tag p with [] => _ | _ :: _ => _ end) as [[[? ?] ?] ?]. reflexivity. }
  destruct (is_tag a) eqn:T; [|destruct (is_status a) eqn:S].
  - assert (S : is_status a = false) by (unfold is_tag, is_status in *; destruct (a_kind a); discriminate || reflexivity).
    rewrite S. cbn [andb negb]. rewrite andb_true_r, negb_involutive.
    pose proof (command_of_tag g t r p Fp) as CT.
    assert (G : forall x, c_tag (command_of g t r p) = Some x ->
       (match t with None => true | Some _ => false end && (length (filter is_tag p) =? 0)%nat) = false).
    { intros x Hx. destruct t; [reflexivity|]. destruct (filter is_tag p) eqn:E; [|reflexivity].
      destruct CT as [_ CT]. rewrite CT in Hx by auto. discriminate. }
    destruct (c_tag (command_of g t r p)) as [x|] eqn:Ex.
    + rewrite (G x eq_refl). unfold is_tag in T. unfold add_init. rewrite Ex.
      destruct (a_kind a); try discriminate; reflexivity.
    + destruct CT as [CT _]. destruct (CT eq_refl) as [Et Eg]. subst t. rewrite Et. cbn [length Nat.eqb andb].
      specialize (Fa T). unfold add_init. rewrite Ex.
      unfold command_of in *. 
      assert (PP : plain a = false) by (unfold plain; rewrite T; reflexivity).
      rewrite !filter_snoc, Et, T, S, PP in *.
      cbn [app hd_error c_actions c_status c_generate c_respond c_completed c_error negb andb] in *.
      rewrite !app_nil_r.
      unfold is_tag in T. unfold tag_id_of in *.
      destruct (a_kind a) eqn:K; try discriminate; destruct (a_op a); try congruence; cbn [operand_tag rbind];
        rewrite ?app_nil_r; reflexivity.
  - cbn [andb negb]. rewrite negb_involutive. pose proof (status_kind a S) as K. unfold add_init. rewrite K.
    rewrite command_of_status. destruct (filter is_status p) as [|x l] eqn:Es; cbn [hd_error length Nat.eqb]; [|reflexivity].
    f_equal. unfold command_of. rewrite !filter_snoc, T, S, Es.
    assert (PP : plain a = false) by (unfold plain; rewrite T, S; reflexivity). rewrite PP. rewrite !app_nil_r.
    destruct (match filter is_tag p with [] => _ | _ :: _ => _ end) as [[[? ?] ?] ?]. reflexivity.
  - cbn [andb negb]. apply Pl; auto. unfold add_init. rewrite command_of_actions.
    unfold is_tag, is_status in *. destruct (a_kind a); try discriminate; try reflexivity.
    destruct ext as [|q|q]; try reflexivity. destruct q; try discriminate; reflexivity.
Qed.

Fixpoint follow_all (tag0 : option Z) (p l : list Action) : bool :=
  match l with [] => true | a :: r => may_follow tag0 p a && follow_all tag0 (p ++ [a]) r end.
Definition has_none (l : list (option Action)) : bool :=
  existsb (fun o => match o with None => true | Some _ => false end) l.
Definition somes {A} (l : list (option A)) : list A :=
  flat_map (fun o => match o with Some a => [a] | None => [] end) l.
Lemma command_loop_spec g t r l : forall p bad, Forall tag_typed p -> Forall tag_typed (somes l) ->
  command_loop l (command_of g t r p) bad =
  if follow_all t p (somes l) then Ok (command_of g t r (p ++ somes l), bad || has_none l) else Err ParseError.
Proof.
  induction l as [|[a|] l IH]; intros p bad Fp Fl; cbn [command_loop somes flat_map app follow_all has_none existsb].
  - rewrite app_nil_r, orb_false_r. reflexivity.
  - cbn [somes flat_map app] in Fl. inversion Fl as [|? ? Ha Hl]; subst. rewrite add_init_spec by assumption.
    destruct (may_follow t p a); cbn [andb rbind]; [|reflexivity]. fold (somes l).
    rewrite IH; [|apply Forall_app; auto | exact Hl]. rewrite <- app_assoc. reflexivity.
  - cbn [somes flat_map app] in Fl. rewrite IH by assumption. unfold somes, has_none.
    rewrite orb_true_l, orb_true_r. reflexivity.
Qed.
Lemma follow_all_spec t l : forall p, (t = None -> one_tag p) -> (t <> None -> filter is_tag p = []) -> one_status p ->
  follow_all t p l = true <->
  (t = None -> one_tag (p ++ l)) /\ (t <> None -> filter is_tag (p ++ l) = []) /\ one_status (p ++ l).
Proof.
  induction l as [|a l IH]; intros p H1 H2 H3; cbn [follow_all].
  - rewrite app_nil_r. split; auto.
  - assert (M : may_follow t p a = true <->
       (t = None -> one_tag (p ++ [a])) /\ (t <> None -> filter is_tag (p ++ [a]) = []) /\ one_status (p ++ [a])).
    { unfold may_follow, one_tag, one_status in *. rewrite !filter_snoc, !app_length.
      destruct (is_tag a), (is_status a), t; cbn [length]; (split; [intros M|intros (M1 & M2 & M3)]);
      try (specialize (M1 eq_refl)); try (specialize (H1 eq_refl));
      try (assert (N : Some z <> None) by discriminate; try specialize (M2 N); try specialize (H2 N));
      try (apply app_eq_nil in M2 as [_ M2]; discriminate M2);
      repeat split; intros; rewrite ?app_nil_r; try congruence; try lia; try (apply H2; assumption). }
    replace (p ++ a :: l) with ((p ++ [a]) ++ l) by (rewrite <- app_assoc; reflexivity).
    rewrite andb_true_iff. split.
    + intros [Ma Mf]. apply M in Ma as (A1 & A2 & A3). apply (IH (p ++ [a])) in Mf; assumption.
    + intros (B1 & B2 & B3).
      assert (Ma : may_follow t p a = true).
      { apply M. unfold one_tag, one_status in *. rewrite !filter_app, ?app_length in *.
        cbn [filter] in *.
        refine (conj _ (conj _ _)).
        - intros Ht. specialize (B1 Ht). lia.
        - intros Ht. specialize (B2 Ht). apply app_eq_nil in B2 as [B2 _]. exact B2.
        - lia. }
      split; [exact Ma|]. apply M in Ma as (A1 & A2 & A3). apply IH; auto.
Qed.
Lemma mk_command_spec rnd l g t r : Forall tag_typed (somes l) ->
  (let ok := (t = None -> one_tag (somes l)) /\ (t <> None -> filter is_tag (somes l) = []) /\ one_status (somes l) in
   (~ ok -> mk_command rnd l g t r = Err ParseError) /\
   (ok -> has_none l = true -> mk_command rnd l g t r = Err ValueError) /\
   (ok -> has_none l = false -> exists c, mk_command rnd l g t r = Ok c /\
      (let c0 := command_of g t r (somes l) in
       c_actions c = c_actions c0 /\ c_status c = c_status c0 /\ c_generate c = g
       /\ c_tag c = (if g then match c_tag c0 with Some x => Some x | None => Some rnd end else c_tag c0)
       /\ c_respond c = c_respond c0 /\ c_completed c = c_completed c0 /\ c_error c = c_error c0))).
Proof.
  intros F ok. pose proof (command_loop_spec g t r l [] false (Forall_nil _) F) as L.
  pose proof (follow_all_spec t (somes l) [] ltac:(unfold one_tag; cbn; lia) ltac:(reflexivity)
    ltac:(unfold one_status; cbn; lia)) as FA. cbn [app] in FA. fold ok in FA.
  assert (E0 : command_of g t r [] = mkCommand [] None g t r false None) by reflexivity.
  unfold mk_command. rewrite <- E0, L. clear L E0. cbn [app orb].
  assert (G : c_generate (command_of g t r (somes l)) = g).
  { unfold command_of. destruct (match filter is_tag (somes l) with [] => _ | _ :: _ => _ end) as [[[? ?] ?] ?]. reflexivity. }
  refine (conj _ (conj _ _)).
  - intros N. destruct (follow_all t [] (somes l)) eqn:Ef; [|reflexivity]. destruct N. apply FA. reflexivity.
  - intros K B. apply FA in K. rewrite K. cbn [rbind]. rewrite B. reflexivity.
  - intros K B. apply FA in K. rewrite K. cbn [rbind]. rewrite B. unfold validated. cbn [negb].
    eexists. split; [reflexivity|]. cbv zeta.
    destruct g; [|repeat split; auto; fail].
    destruct (c_tag (command_of true t r (somes l))) eqn:Et; repeat split; auto.
Qed.
Lemma mk_command_parsed l : Forall tag_typed (somes l) -> one_tag (somes l) -> one_status (somes l) ->
  has_none l = false -> mk_command 0 l false None true = Ok (command_of false None true (somes l)).
Proof.
  intros F T S N. destruct (mk_command_spec 0 l false None true F) as (_ & _ & H).
  destruct H as (c & -> & H1 & H2 & H3 & H4 & H5 & H6 & H7); [split; [auto|split; [congruence|auto]] | exact N |].
  f_equal. destruct c as [a1 a2 a3 a4 a5 a6 a7].
  cbn [c_actions c_status c_generate c_tag c_respond c_completed c_error] in *.
  unfold command_of in *.
  destruct (match filter is_tag (somes l) with [] => _ | _ :: _ => _ end) as [[[? ?] ?] ?].
  cbn [c_actions c_status c_generate c_tag c_respond c_completed c_error] in *. congruence.
Qed.
Lemma somes_map {A} (l : list A) : somes (map Some l) = l.
Proof. induction l; cbn; [reflexivity|]. unfold somes in IHl. rewrite IHl. reflexivity. Qed.
Lemma has_none_map l : has_none (map Some l) = false.
Proof. induction l; cbn; auto. Qed.

(** ** The action loop *)
Definition whole8 (l : list bool) : Prop := (length l mod 8 = 0 /\ 8 <= length l)%nat.
Lemma actions_accepts items : Forall (fun x => accepts parse_action (fst x) (snd x) /\ whole8 (fst x)) items ->
  forall fuel parsed total, (length items < fuel)%nat ->
  parsed + zlen (concat (map fst items)) / 8 = total ->
  accepts_aligned (parse_actions fuel parsed total) (concat (map fst items)) (map snd items).
Proof.
  induction 1 as [|[l a] items [Ha [W1 W2]] Hi IH]; intros fuel parsed total Hf Hp ps rest Hps;
    (destruct fuel as [|fuel]; [cbn [length] in Hf; lia|]); cbn [map concat fst snd parse_actions] in *.
  - unfold zlen in Hp. cbn [length] in Hp. replace (parsed <? total) with false by lia.
    unfold ret. cbn [app length]. do 3 f_equal. lia.
  - unfold zlen in *. rewrite app_length in *. replace (parsed <? total) with true by lia.
    unfold bindp at 1. unfold bytepos at 1. cbn [pos].
    replace (Z.of_nat ps mod 8 =? 0) with true by lia.
    unfold bindp at 1. rewrite <- app_assoc, Ha.
    unfold bindp at 1. unfold bytepos at 1. cbn [pos].
    replace (Z.of_nat (ps + length l) mod 8 =? 0) with true by lia.
    unfold bindp at 1. rewrite IH; [|cbn [length] in Hf; lia | lia | lia].
    unfold ret. do 3 f_equal. lia.
Qed.
Lemma items_len items : Forall (fun x : list bool * option Action => whole8 (fst x)) items ->
  (8 * length items <= length (concat (map fst items)))%nat.
Proof.
  induction 1 as [|x l [H1 H2] Hl IH]; cbn [map concat length]; [lia|]. rewrite app_length. lia.
Qed.
Lemma alp_accepts items : Forall (fun x => accepts parse_action (fst x) (snd x) /\ whole8 (fst x)) items ->
  forall c, mk_command 0 (map snd items) false None true = Ok c ->
  accepts_aligned (alp_parse (zlen (concat (map fst items)) / 8)) (concat (map fst items)) c.
Proof.
  intros H c Hc ps rest Hps. unfold alp_parse.
  assert (L : (8 * length items <= length (concat (map fst items)))%nat).
  { apply items_len. eapply Forall_impl; [|exact H]. cbn. tauto. }
  destruct items as [|x items'].
  - cbn [map concat] in *. unfold zlen. cbn [length].
    change (Z.of_nat 0 / 8 =? 0) with true. cbv iota. unfold bindp, ret. rewrite Hc. unfold lift.
    cbn [app length]. do 3 f_equal. lia.
  - remember (x :: items') as items. assert (N : (1 <= length items)%nat) by (subst; cbn; lia). clear Heqitems x items'.
    replace (zlen (concat (map fst items)) / 8 =? 0) with false by (unfold zlen; lia).
    unfold bindp. cbn [bits].
    rewrite (actions_accepts items H); [|rewrite app_length; lia | lia | exact Hps].
    rewrite Hc. reflexivity.
Qed.

(** ** Commands *)
Lemma emits_whole r l : emits r l -> (length l mod 8 = 0)%nat.
Proof. intros (bs & _ & _ & <-). rewrite bytes_bits_length. lia. Qed.
Lemma act_bits_len b7 b6 o : (8 <= length (act_bits b7 b6 o))%nat.
Proof. unfold act_bits. rewrite !app_length, Zbits_length. cbn [length]. lia. Qed.
Lemma action_whole a : action_wf a -> whole8 (action_layout a).
Proof.
  intros W. split; [eapply emits_whole; apply action_emits; exact W|].
  unfold action_layout. destruct a as [k o]. destruct W as [_ W]. cbn [a_kind a_op] in *.
  destruct k; try apply act_bits_len; contradiction.
Qed.
Lemma tag_action_wf r t : 0 <= t <= 255 -> action_wf (mkAction (TagReqAct r) (TagRequest (mkTag t))).
Proof. intros H. split; [exact H | exact I]. Qed.
Lemma command_emits c : command_wf c -> emits (command_ser c) (command_layout c).
Proof.
  intros (H1 & H2 & H3 & H4). unfold command_ser, command_layout. rewrite H3.
  apply emits_app.
  - destruct (c_generate c); [|apply emits_nil]. destruct (H4 eq_refl) as (t & -> & Ht).
    unfold mk_tag. rewrite validated_ok by ranges. cbn [rbind mk_action].
    unfold validated. apply (action_emits (mkAction (TagReqAct (c_respond c)) (TagRequest (mkTag t)))).
    apply tag_action_wf. exact Ht.
  - change (flat_map action_layout (c_actions c)) with ([] ++ flat_map action_layout (c_actions c)).
    apply emits_app; [apply emits_nil|].
    apply emits_rconcat. eapply Forall_impl; [|exact H1]. apply action_emits.
Qed.
Lemma received_plain a : action_wf a -> plain a = true -> plain (action_received a) = true.
Proof. destruct a as [k o]. intros _. unfold action_received, plain, is_tag, is_status. destruct k, o; cbn; auto. Qed.
Lemma received_tag a : is_tag (action_received a) = is_tag a.
Proof. destruct a as [k o]. unfold action_received, is_tag. destruct k, o; reflexivity. Qed.
Lemma received_status a : is_status (action_received a) = is_status a.
Proof. destruct a as [k o]. unfold action_received, is_status. destruct k, o; reflexivity. Qed.
Lemma filter_none {A} f (l : list A) : forallb (fun x => negb (f x)) l = true -> filter f l = [].
Proof. induction l as [|a l IH]; cbn; [reflexivity|]. destruct (f a); [discriminate|]. exact IH. Qed.
Lemma filter_every {A} f (l : list A) : forallb f l = true -> filter f l = l.
Proof. induction l as [|a l IH]; cbn; [reflexivity|]. destruct (f a); [|discriminate]. intros H. rewrite IH by exact H. reflexivity. Qed.
Lemma plain_lists l : forallb plain l = true ->
  filter is_tag l = [] /\ filter is_status l = [] /\ filter plain l = l.
Proof.
  intros H. rewrite forallb_forall in H. refine (conj _ (conj _ _)).
  - apply filter_none, forallb_forall. intros x I. specialize (H x I). unfold plain in H. destruct (is_tag x); cbn in *; congruence.
  - apply filter_none, forallb_forall. intros x I. specialize (H x I). unfold plain in H. destruct (is_status x), (is_tag x); cbn in *; congruence.
  - apply filter_every, forallb_forall. exact H.
Qed.
Definition command_item_list (c : Command) : list (list bool * option Action) :=
  (if c_generate c then
     match c_tag c with
     | Some t => let ta := mkAction (TagReqAct (c_respond c)) (TagRequest (mkTag t)) in
                 [(action_layout ta, Some (action_received ta))]
     | None => []
     end
   else []) ++ map (fun a => (action_layout a, Some (action_received a))) (c_actions c).
Lemma command_items c : command_wf c -> let items := command_item_list c in
  Forall (fun x => accepts parse_action (fst x) (snd x) /\ whole8 (fst x)) items
  /\ concat (map fst items) = command_layout c
  /\ mk_command 0 (map snd items) false None true = Ok (command_received c).
Proof.
  intros (H1 & H2 & H3 & H4). cbv zeta. unfold command_item_list.
  set (body := map (fun a => (action_layout a, Some (action_received a))) (c_actions c)).
  assert (Fb : Forall (fun x => accepts parse_action (fst x) (snd x) /\ whole8 (fst x)) body).
  { unfold body. apply Forall_map. eapply Forall_impl; [|exact H1]. cbn [fst snd].
    intros a Ha. split; [apply action_accepts | apply action_whole]; exact Ha. }
  assert (Cb : concat (map fst body) = flat_map action_layout (c_actions c)).
  { unfold body. rewrite map_map. cbn [fst]. symmetry. apply flat_map_concat_map. }
  assert (Sb : map snd body = map Some (map action_received (c_actions c))).
  { unfold body. rewrite !map_map. reflexivity. }
  assert (Pb : forallb plain (map action_received (c_actions c)) = true).
  { apply forallb_forall. intros x I. apply in_map_iff in I as (y & <- & I).
    rewrite Forall_forall in H1. rewrite forallb_forall in H2. apply received_plain; auto. }
  destruct (plain_lists _ Pb) as (T & S & F).
  assert (TT : Forall tag_typed (map action_received (c_actions c))).
  { apply Forall_forall. intros x I K. exfalso.
    assert (I' : In x (filter is_tag (map action_received (c_actions c)))) by (apply filter_In; auto).
    rewrite T in I'. exact I'. }
  unfold command_layout, command_received. destruct (c_generate c).
  - destruct (H4 eq_refl) as (t & -> & Ht).
    set (ta := mkAction (TagReqAct (c_respond c)) (TagRequest (mkTag t))).
    cbv zeta. fold ta. cbn [app]. refine (conj _ (conj _ _)).
    + constructor; [|exact Fb]. cbn [fst snd].
      split; [apply action_accepts | apply action_whole]; apply tag_action_wf; exact Ht.
    + cbn [map concat fst]. rewrite Cb. reflexivity.
    + cbn [map snd]. rewrite Sb. change (Some (action_received ta) :: map Some (map action_received (c_actions c)))
        with (map Some (ta :: map action_received (c_actions c))).
      rewrite mk_command_parsed; rewrite ?somes_map, ?has_none_map; auto.
      * f_equal. unfold command_of. cbn [filter is_tag is_status plain ta a_kind negb andb].
        rewrite S, F. reflexivity.
      * constructor; [|exact TT]. intros _. discriminate.
      * unfold one_tag. cbn [filter is_tag ta a_kind]. rewrite T. cbn [length]. lia.
      * unfold one_status. cbn [filter is_status ta a_kind]. rewrite S. cbn [length]. lia.
  - cbn [app]. refine (conj Fb (conj Cb _)). rewrite Sb.
    rewrite mk_command_parsed; rewrite ?somes_map, ?has_none_map; auto.
    + f_equal. unfold command_of. rewrite T, S, F. reflexivity.
    + unfold one_tag. rewrite T. cbn [length]. lia.
    + unfold one_status. rewrite S. cbn [length]. lia.
Qed.
Lemma command_accepts c : command_wf c ->
  accepts_aligned (alp_parse (command_bytes c)) (command_layout c) (command_received c).
Proof.
  intros W. destruct (command_items c W) as (H1 & H2 & H3).
  unfold command_bytes. rewrite <- H2. apply alp_accepts; assumption.
Qed.
