(** The system files as the library has them in its table. *)
From Verif Require Export SContent.

(** ** The files in the table as they are: what is in them *)
Definition zeros (n : nat) : list Z := repeat 0 n.
Definition table_content (id : Z) : option (list Z) :=
  match id with
  | 0 => Some (zeros 8)
  | 1 => Some (zeros 3 ++ [40; 228; 0; 1; 51; 54; 0; 1; 235; 172; 0; 0; 37; 128; 0; 0; 18; 192; 0; 0; 217; 3; 0; 0; 195; 80;
               0; 2; 139; 11; 0; 0; 162; 195; 5; 5; 7; 3; 3; 3; 15; 10; 10; 2; 0; 0; 1; 232; 72; 9; 2; 0; 40])
  | 2 => Some (zeros 4 ++ repeat 32 13)
  | 3 => Some (zeros 19)
  | 5 => Some [0; 0; 0; 48; 0; 0; 0; 0; 0]
  | 6 => Some [255; 255; 0]
  | 9 => Some (zeros 15)
  | 10 => Some (zeros 7)
  | 11 => Some (zeros 3 ++ [50] ++ zeros 12)
  | 14 => Some (zeros 16)
  | 24 | 25 => Some (zeros 40)
  | _ => None
  end.
