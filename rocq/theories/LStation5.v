(** C102: schedules of two readers. *)
From Coq Require Import Lia.
From Verif Require Import LInside LInside2 LInside3 LInside4.
From Verif Require Import SStation MReaders LStation.
Set Implicit Arguments.
Close Scope Z_scope.

(** a second [start_reading] *)
Definition second : list StationLabel := map TPort (start_more 1).
(** reader [i] takes a byte; hands it over; makes [k] steps in [parse]; is done with it *)
Definition tk (i : nat) (b : Z) : list StationLabel := map TPort (takes i b).
Definition hd (i : nat) : list StationLabel := [TPort (KLoop i)].
Definition ps (i k : nat) : list StationLabel := repeat (TParse i) k.
Definition dn (i : nat) : list StationLabel := [TPort (KDone i true)].
Definition bytes0 (l : list Z) : list StationLabel := flat_map (fun b => one_byte 0 b 10) l.
(** the second of two bytes goes first *)
Definition swap (a b : Z) : list StationLabel := tk 0 a ++ one_byte 1 b 10 ++ hd 0 ++ ps 0 10 ++ dn 0.

Definition swap_header : list StationLabel := second ++ bytes0 [192; 0]%Z ++ swap 4 1 ++ bytes0 [1; 185; 21]%Z ++ one_byte 0 65 17.
Lemma other_type : forall lib sk, exists ls s, station_run lib (station_of (new_parser sk) 1 2) ls = Some s
  /\ starts (port_labels ls) = 1 /\ came (port_labels ls) = frame 4 1 [65%Z] /\ nobody_inside (st_in s)
  /\ returned (st_in s) = [(4%Z, MRaw [65%Z])].
Proof.
  intros [|] [|]; exists swap_header; eexists; (split; [vm_compute; reflexivity|]); (split; [vm_compute; reflexivity|]);
  (split; [vm_compute; reflexivity|]); (split; [repeat constructor | vm_compute; reflexivity]).
Qed.
Definition crc2 := let (h, l) := calculate_crc [65; 66]%Z in [h; l].
Definition swap_payload : list StationLabel := second ++ bytes0 ([192; 0; 1; 4; 2]%Z ++ crc2) ++ tk 0 65 ++ one_byte 1 66 10 ++ hd 0 ++ ps 0 19 ++ dn 0.
Lemma lost_swapped : forall lib sk, exists ls s, station_run lib (station_of (new_parser sk) 1 2) ls = Some s
  /\ starts (port_labels ls) = 1 /\ came (port_labels ls) = frame 1 4 [65; 66]%Z /\ nobody_inside (st_in s)
  /\ returned (st_in s) = [] /\ sp_buf (parser_now (st_in s)) = [].
Proof.
  intros [|] [|]; exists swap_payload; eexists; (split; [vm_compute; reflexivity|]); (split; [vm_compute; reflexivity|]);
  (split; [vm_compute; reflexivity|]); (split; [repeat constructor | split; vm_compute; reflexivity]).
Qed.
Definition both_readers_see : list StationLabel :=
  second ++ bytes0 [192; 0; 1; 4; 1; 185; 21]%Z ++ tk 0 65 ++ hd 0 ++ ps 0 2 ++ tk 1 192 ++ hd 1 ++ ps 1 2 ++ ps 0 7 ++ ps 1 7 ++ ps 0 12 ++ ps 1 12.
Lemma delivered_twice : forall lib sk, exists ls s, station_run lib (station_of (new_parser sk) 1 2) ls = Some s
  /\ starts (port_labels ls) = 1 /\ came (port_labels ls) = frame 1 4 [65%Z] ++ [192%Z] /\ nobody_inside (st_in s)
  /\ returned (st_in s) = [(4, MRaw [65]); (4, MRaw [65])]%Z.
Proof.
  intros [|] [|]; exists both_readers_see; eexists; (split; [vm_compute; reflexivity|]); (split; [vm_compute; reflexivity|]);
  (split; [vm_compute; reflexivity|]); (split; [repeat constructor | vm_compute; reflexivity]).
Qed.

(** * For ever *)
Definition stop_call : list StationLabel := map TPort [KStop (App 0); KGoOn (App 0); KGoOn (App 0)].
Definition begin_both : list StationLabel :=
  second ++ bytes0 [192; 0; 1; 4; 2; 0; 0; 192]%Z ++ tk 0 1 ++ hd 0 ++ ps 0 2 ++ tk 1 7 ++ hd 1 ++ ps 1 2 ++ ps 0 7 ++ ps 1 13 ++ ps 0 5 ++ stop_call.
Definition to_parse (x : InLabel) : StationLabel := match x with IGo i | ICall i _ => TParse i end.
Definition cycle' : list StationLabel := map to_parse cycle.
Lemma begin_both_ok lib sk : exists s, station_run lib (station_of (new_parser sk) 1 2) begin_both = Some s
  /\ busy lib sk false (st_in s) /\ the_call (st_port s) (App 0) = Some (CJoin 1).
Proof.
  destruct lib, sk; eexists; (split; [vm_compute; reflexivity|]); (split; [|reflexivity]);
    (eexists [_], _, _, _, _, _; split; [|reflexivity]; reflexivity).
Qed.
Lemma parse_run lib is : forall w v v', inside_run lib v (map IGo is) = Some v' ->
  station_run lib (mkStation w v) (map TParse is) = Some (mkStation w v').
Proof.
  induction is as [|i is IH]; intros w v v' R; [injection R as <-; reflexivity|]. cbn [map inside_run station_run station_step] in *.
  destruct (inside_step lib v (IGo i)) as [u|]; [|discriminate]. apply IH. exact R.
Qed.
Definition who (x : InLabel) : nat := match x with IGo i | ICall i _ => i end.
Lemma cycles_go n : concat (repeat cycle n) = map IGo (map who (concat (repeat cycle n))).
Proof. induction n as [|n IH]; [reflexivity|]. cbn [repeat concat]. rewrite !map_app, <- IH. reflexivity. Qed.
Lemma cycles_parse n : concat (repeat cycle' n) = map TParse (map who (concat (repeat cycle n))).
Proof. induction n as [|n IH]; [reflexivity|]. cbn [repeat concat]. rewrite !map_app, <- IH. reflexivity. Qed.
Definition forever (k : nat) : StationLabel := nth k (begin_both ++ concat (repeat cycle' k)) (TParse 0).
Definition began : nat := length begin_both.
Lemma cycles'_length n : length (concat (repeat cycle' n)) = 26 * n.
Proof. induction n as [|n IH]; [reflexivity|]. cbn [repeat concat]. rewrite app_length, IH. change (length cycle') with 26. lia. Qed.
Lemma cycles'_more a b : concat (repeat cycle' (a + b)) = concat (repeat cycle' a) ++ concat (repeat cycle' b).
Proof. rewrite repeat_app, concat_app. reflexivity. Qed.
Lemma forever_nth k n : k <= n -> forever k = nth k (begin_both ++ concat (repeat cycle' n)) (TParse 0).
Proof.
  intro L. unfold forever. replace n with (k + (n - k)) by lia. rewrite cycles'_more, app_assoc. symmetry. apply app_nth1.
  rewrite app_length, cycles'_length. change (length begin_both) with began. unfold began. cbn [length begin_both]. 
  assert (1 <= length begin_both) by (vm_compute; lia). lia.
Qed.
Lemma forever_first k : first_steps forever k = firstn k (begin_both ++ concat (repeat cycle' k)).
Proof.
  assert (B : 1 <= length begin_both) by (vm_compute; lia).
  apply nth_ext with (d := TParse 0) (d' := TParse 0).
  - unfold first_steps. rewrite map_length, seq_length, firstn_length, app_length, cycles'_length. lia.
  - intros j J. unfold first_steps in *. rewrite map_length, seq_length in J.
    rewrite nth_indep with (d' := forever 0) by (rewrite map_length, seq_length; exact J).
    rewrite map_nth, seq_nth by exact J. cbn [Nat.add]. rewrite (@forever_nth j k) by lia.
    rewrite <- (firstn_skipn k (begin_both ++ concat (repeat cycle' k))) at 1. apply app_nth1.
    rewrite firstn_length, app_length, cycles'_length. lia.
Qed.
Lemma forever_goes i : i < 2 -> forall k, exists n, k <= n /\ forever n = TParse i.
Proof.
  intros L k. assert (B : 1 <= length begin_both) by (vm_compute; lia).
  assert (E : forall j, j < 26 -> forever (length begin_both + 26 * k + j) = nth j cycle' (TParse 0)).
  { intros j J. rewrite (@forever_nth _ (k + (1 + (length begin_both + 26 * k + j)))) by lia. rewrite cycles'_more, app_assoc.
    rewrite app_nth2 by (rewrite app_length, cycles'_length; lia).
    rewrite app_length, cycles'_length. replace (length begin_both + 26 * k + j - (length begin_both + 26 * k)) with j by lia.
    change (repeat cycle' (1 + (length begin_both + 26 * k + j))) with (cycle' :: repeat cycle' (length begin_both + 26 * k + j)). cbn [concat].
    apply app_nth1. exact J. }
  destruct i as [|[|i]]; [| |lia].
  - exists (length begin_both + 26 * k + 7). split; [lia|]. rewrite E by lia. reflexivity.
  - exists (length begin_both + 26 * k + 0). split; [lia|]. rewrite E by lia. reflexivity.
Qed.
Lemma firstn_concat k : exists is, concat (repeat cycle' k) = map TParse is.
Proof. rewrite cycles_parse. eauto. Qed.
Lemma never_stops : forall lib sk, exists f most,
  (forall i, i < 2 -> forall k, exists n, k <= n /\ f n = TParse i)
  /\ forall k, exists s, station_run lib (station_of (new_parser sk) 1 2) (first_steps f k) = Some s
     /\ starts (port_labels (first_steps f k)) <= 1 /\ (exists more, came (port_labels (first_steps f k)) ++ more = [192; 0; 1; 4; 2; 0; 0; 192; 1; 7]%Z)
     /\ (most <= k -> the_call (st_port s) (App 0) = Some (CJoin 1)).
Proof.
  intros lib sk. exists forever, (length begin_both). split; [apply forever_goes|]. intro k. rewrite forever_first.
  destruct (begin_both_ok lib sk) as (s & R & B & C). destruct s as [w v]. cbn [st_in st_port] in *.
  destruct (@cycles lib sk k v B) as (v' & Rv & _). rewrite cycles_go in Rv. apply (@parse_run lib _ w) in Rv. rewrite <- cycles_parse in Rv.
  assert (All : station_run lib (station_of (new_parser sk) 1 2) (begin_both ++ concat (repeat cycle' k)) = Some (mkStation w v'))
    by (rewrite station_app, R; exact Rv).
  set (all := begin_both ++ concat (repeat cycle' k)) in *.
  assert (Q : exists u, station_run lib (station_of (new_parser sk) 1 2) (firstn k all) = Some u).
  { rewrite <- (firstn_skipn k all), station_app in All. destruct (station_run lib (station_of (new_parser sk) 1 2) (firstn k all)); [eauto | discriminate]. }
  destruct Q as [u U]. exists u. split; [exact U|].
  assert (Pl : forall is, port_labels (map TParse is) = []) by (induction is; auto).
  assert (Pa : port_labels all = port_labels begin_both).
  { unfold all. rewrite port_labels_app, cycles_parse, Pl, app_nil_r. reflexivity. }
  assert (Pf : port_labels all = port_labels (firstn k all) ++ port_labels (skipn k all)) by (rewrite <- port_labels_app, firstn_skipn; reflexivity).
  rewrite Pa in Pf. split; [|split].
  - assert (S : starts (port_labels begin_both) = 1) by reflexivity. rewrite Pf in S. unfold starts in *. rewrite filter_app, app_length in S. lia.
  - exists (came (port_labels (skipn k all))). unfold came. rewrite <- flat_map_app, <- Pf. reflexivity.
  - intro L. assert (F : firstn k all = begin_both ++ firstn (k - length begin_both) (concat (repeat cycle' k))).
    { unfold all. rewrite firstn_app. f_equal. apply firstn_all2. exact L. }
    rewrite F, station_app, R in U.
    assert (W : forall is a b, station_run lib a (map TParse is) = Some b -> st_port b = st_port a).
    { clear. induction is as [|i is IH]; intros [w v] b Rb; [injection Rb as <-; reflexivity|]. cbn [map station_run station_step] in Rb.
      destruct (inside_step lib v (IGo i)); [|discriminate]. apply IH in Rb. exact Rb. }
    rewrite cycles_parse, firstn_map in U. apply W in U. rewrite U. exact C.
Qed.
