(** Hexadecimal text for bytes *)
From Verif Require Import Bits MSysFiles SFiles SContent.

(** digits in either case *)
Definition digit_for (n c : Z) : Prop :=
  (0 <= n <= 9 /\ c = 48 + n) \/ (10 <= n <= 15 /\ (c = 97 + (n - 10) \/ c = 65 + (n - 10))).
(** two digits per byte, high half first *)
Inductive digits_of : list Z -> list Z -> Prop :=
| dg_nil : digits_of [] []
| dg_byte hi lo ch cl bs cs : digit_for hi ch -> digit_for lo cl -> digits_of bs cs ->
    digits_of (16 * hi + lo :: bs) (ch :: cl :: cs).
(** [with_blanks l t]: [t] is [l] with blanks inserted anywhere *)
Inductive with_blanks : list Z -> list Z -> Prop :=
| wb_nil : with_blanks [] []
| wb_blank l t : with_blanks l t -> with_blanks l (32 :: t)
| wb_char c l t : with_blanks l t -> with_blanks (c :: l) (c :: t).
Definition white (c : Z) : Prop := 9 <= c <= 13 \/ c = 32.
(** the texts that stand for [bytes] *)
Definition written (bytes text : list Z) : Prop :=
  exists digits before middle after, digits_of bytes digits /\ with_blanks digits middle
    /\ Forall white before /\ Forall white after /\ text = before ++ middle ++ after.
(** system files that are read back exactly; for the tool the number of channels
    of a PHY status file does not matter *)
Definition readable (f : SysFile) : Prop :=
  match f with F_PhyStatus x => ps_wf x | _ => survives f end.
(** the identifiers of files the tool can show *)
Definition shown_ids : list Z := [0; 1; 2; 5; 6; 9; 10; 11] ++ [32; 33; 34; 35; 36; 37; 38; 39; 40; 41; 42; 43; 44; 45; 46].
