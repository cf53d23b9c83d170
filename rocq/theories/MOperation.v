(** d7a/alp/operations/*.py: making an operation from an operand. *)
From Coq Require Import String.
From Verif Require Import MBase MSchema.
Open Scope string_scope.
Open Scope Z_scope.

(** An operation class: its name, [self.op], [self.operand_class] *)
Record OpClass := mkOpClass { oc_name : string; oc_op : Z; oc_operand : option string }.

(** nop.py:30-34, requests.py:29-40, write_operations.py:28-39,
    break_query.py:28-32, file_management.py:28-32, responses.py:38-45,63-67,
    status.py:28-32, tag_response.py:28-32, forward.py:28-32,
    indirect_forward.py:28-32, tag_request.py:28-32 *)
Definition operation_classes : list OpClass :=
  [ mkOpClass "NoOperation" 0 None;
    mkOpClass "ReadFileData" 1 (Some "DataRequest");
    mkOpClass "ReadFileHeader" 2 (Some "FileIdOperand");
    mkOpClass "WriteFileData" 4 (Some "Data");
    mkOpClass "WriteFileHeader" 6 (Some "FileHeaderOperand");
    mkOpClass "BreakQuery" 9 (Some "QueryOperand");
    mkOpClass "CreateNewFile" 17 (Some "FileHeaderOperand");
    mkOpClass "ReturnFileData" 32 (Some "Data");
    mkOpClass "ReturnFileHeader" 33 (Some "FileHeaderOperand");
    mkOpClass "InterfaceStatus" 34 (Some "InterfaceStatusOperand");
    mkOpClass "TagResponse" 35 (Some "TagId");
    mkOpClass "Forward" 50 (Some "InterfaceConfiguration");
    mkOpClass "IndirectForward" 51 (Some "IndirectInterfaceOperand");
    mkOpClass "TagRequest" 52 (Some "TagId") ].

(** Operation.__init__, operation.py:35-46: the operand stored, or the
    [ValueError].  [Validatable.__init__] is not called. *)
Definition operation_init (operand_class : option string) (operand : PyVal) : res PyVal :=
  let is_none := match operand with VNone => true | _ => false end in
  let no_class := match operand_class with None => true | Some _ => false end in
  if no_class && negb is_none then Err ValueError
  else if (is_none && negb no_class)
          || (negb is_none && negb (match operand_class with Some c => isinstance operand c | None => false end))
  then Err ValueError
  else Ok operand.

(** [Class()] or [Class(operand)]: NoOperation.__init__ takes no argument and
    InterfaceStatus.__init__ requires one (nop.py:31, status.py:29), so Python
    itself raises [TypeError]; the other classes pass what they get on to
    Operation.__init__, whose default is [None].  The result is [op] and
    [operand]. *)
Definition make_operation (c : OpClass) (arg : option PyVal) : res (Z * PyVal) :=
  if String.eqb (oc_name c) "NoOperation" && (match arg with Some _ => true | None => false end) then Err TypeError
  else if String.eqb (oc_name c) "InterfaceStatus" && (match arg with Some _ => false | None => true end) then Err TypeError
  else let! operand := operation_init (oc_operand c) (match arg with Some v => v | None => VNone end) in
       Ok (oc_op c, operand).
