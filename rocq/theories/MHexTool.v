(** tools/parse_hexstring.py: decode bytes given as hexadecimal text.
    A character is its code. *)
From Verif Require Import MBase MSysFiles MAlp MSerial MDll.

(** characters removed by [str.strip()]: tab, line feed, vertical tab, form
    feed, carriage return, blank *)
Definition is_space (c : Z) : bool := ((9 <=? c) && (c <=? 13)) || (c =? 32).
Fixpoint lstrip (l : list Z) : list Z :=
  match l with
  | [] => []
  | c :: r => if is_space c then lstrip r else l
  end.
Definition strip (l : list Z) : list Z := rev (lstrip (rev (lstrip l))).

(** [str.decode("hex")]: [TypeError] for an odd number of characters and for a
    character that is no digit *)
Definition hex_digit (c : Z) : option Z :=
  if (48 <=? c) && (c <=? 57) then Some (c - 48)
  else if (97 <=? c) && (c <=? 102) then Some (c - 87)
  else if (65 <=? c) && (c <=? 70) then Some (c - 55)
  else None.
Fixpoint unhex (l : list Z) : res (list Z) :=
  match l with
  | [] => Ok []
  | h :: l :: r =>
      match hex_digit h, hex_digit l with
      | Some a, Some b => let! bs := unhex r in Ok (16 * a + b :: bs)
      | _, _ => Err TypeError
      end
  | [_] => Err TypeError
  end.

(** parse_hexstring.py:41-42: [data.strip().replace(' ', '')], decoded *)
Definition tool_bytes (text : list Z) : res (list Z) :=
  unhex (filter (fun c => negb (c =? 32)) (strip text)).

(** the [--type] option, parse_hexstring.py:34-36 *)
Inductive ToolType := T_fg | T_bg | T_alp | T_serial | T_systemfile.

(** What is printed: the objects handed to [print] *)
Inductive Printed :=
| PrCommand (c : Command)
| PrFile (f : SysFile)
| PrMessages (r : PResult).

(** [SystemFiles().files[SystemFileIds(id)]], parse_hexstring.py:53-54: an
    unknown number (or none) is a [ValueError]; number 47 is a member of the
    enumeration that the table has no file for *)
Definition tool_file (file_id : option Z) : res SysFile :=
  match file_id with
  | None => Err ValueError
  | Some id => if (0 <=? id) && (id <=? 47)
               then match system_file id with Some f => Ok f | None => Err KeyError end
               else Err ValueError
  end.

(** parse_hexstring.py:41-62.  The DLL parser returns a pair, which line 58
    unpacks into three names: [ValueError]. *)
Definition tool (lib : bool) (t : ToolType) (file_id : option Z) (text : list Z) : res Printed :=
  let! data := tool_bytes text in
  match t with
  | T_alp => let! (c, _) := alp_parse (zlen data) (stream_of data) in Ok (PrCommand c)
  | T_systemfile =>
      let! entry := tool_file file_id in
      let! (f, _) := file_parse entry (stream_of data) in Ok (PrFile f)
  | T_serial => let! r := snd (sparse lib (new_parser false) data) in Ok (PrMessages r)
  | T_fg => let! _ := snd (dll_parse lib true [] data) in Err ValueError
  | T_bg => let! _ := snd (dll_parse lib false [] data) in Err ValueError
  end.
