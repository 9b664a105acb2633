(** What NtCreateFile opens: the kernel's side of
    broker/src/windows/brokered_syscalls.rs:110-122, which WinBrokerModel leaves to
    [we_call]. It is not code of the repository. The object attributes are those of lines
    98-105: no root directory, OBJ_CASE_INSENSITIVE.

    Simplifications: the entry of a drive letter leads straight to its volume; a reparse
    point is a junction or symbolic link with an absolute NT path; streams (a name with a
    colon) have entries of their own; access rights, sharing and oplocks are left out. *)
From stdpp Require Import prelude gmap.
From Verif Require Import PolicyModel.
Local Open Scope N_scope.

(** A directory entry: the long name, the short (8.3) name if there is one, the object. *)
Record entry := mkEnt { en_long : list N; en_short : option (list N); en_node : N }.
(** Objects by number. [sens]: a directory marked as case sensitive. *)
Inductive node :=
  | NDir (sens : bool) (entries : list entry)
  | NFile
  | NReparse (to : list (list N)).
Notation nodes := (gmap N node).
(** A machine: its objects, the root of the object namespace, the mapping to capital
    letters, and the objects of each volume by identifier (8 or 16 bytes). *)
Record machine := mkMachine {
  m_nodes : nodes;
  m_root : N;
  m_up : list N → list N;
  m_ids : N → list N → option N }.

Definition STATUS_INVALID_PARAMETER : Z := -1073741811.
Definition STATUS_NOT_A_DIRECTORY : Z := -1073741565.
Definition STATUS_FILE_IS_A_DIRECTORY : Z := -1073741638.
Definition STATUS_OBJECT_NAME_INVALID : Z := -1073741773.
Definition STATUS_OBJECT_NAME_NOT_FOUND : Z := -1073741772.
Definition STATUS_OBJECT_NAME_COLLISION : Z := -1073741771.
Definition STATUS_OBJECT_PATH_NOT_FOUND : Z := -1073741766.
Definition STATUS_REPARSE_POINT_NOT_RESOLVED : Z := -1073741184.

(** Does the name [c] stand for this entry? *)
Definition same_name (m : machine) (sens : bool) (a c : list N) : bool :=
  if sens then bool_decide (a = c) else bool_decide (m_up m a = m_up m c).
Definition entry_is (m : machine) (sens : bool) (c : list N) (e : entry) : bool :=
  same_name m sens (en_long e) c ||
  match en_short e with Some a => same_name m sens a c | None => false end.
(** The first entry with that name. *)
Fixpoint find_entry (m : machine) (sens : bool) (es : list entry) (c : list N) : option N :=
  match es with
  | [] => None
  | e :: es => if entry_is m sens c e then Some (en_node e) else find_entry m sens es c
  end.

(** The end of a walk: an object, or a free name in a directory. *)
Inductive walked := Found (i : N) | Missing (dir : N) (name : list N) | Stopped (status : Z).

(** The components between the separators. An empty one in front of another is invalid; an
    empty one at the end stands for the separator behind a directory's name. A reparse point
    in front of other components is always followed, one at the end if [follow]. *)
Fixpoint walk (links : nat) (m : machine) (follow : bool) : N → list (list N) → walked :=
  fix go (cur : N) (cs : list (list N)) : walked :=
    match cs with
    | [] => Found cur
    | c :: cs =>
        match m_nodes m !! cur with
        | Some (NDir sens entries) =>
            if bool_decide (c = []) then
              if bool_decide (cs = []) then Found cur else Stopped STATUS_OBJECT_NAME_INVALID
            else
              match find_entry m sens entries c with
              | None =>
                  if bool_decide (cs = [] ∨ cs = [[]]) then Missing cur c
                  else Stopped STATUS_OBJECT_PATH_NOT_FOUND
              | Some j =>
                  match m_nodes m !! j with
                  | Some (NReparse to) =>
                      if bool_decide (cs = [] ∨ cs = [[]]) && negb follow then Found j
                      else
                        match links with
                        | O => Stopped STATUS_REPARSE_POINT_NOT_RESOLVED
                        | S links => walk links m follow (m_root m) (to ++ cs)
                        end
                  | _ => go j cs
                  end
              end
        | Some _ => Stopped STATUS_NOT_A_DIRECTORY
        | None => Stopped STATUS_OBJECT_PATH_NOT_FOUND
        end
    end.

(** The components of a name behind its first separator. *)
Fixpoint split_units (us : list N) : list (list N) :=
  match us with
  | [] => [[]]
  | u :: us =>
      if u =? 92 then [] :: split_units us
      else match split_units us with c :: cs => (u :: c) :: cs | [] => [[u]] end
  end.
Definition join_units (cs : list (list N)) : list N :=
  match cs with [] => [] | c :: cs => c ++ concat (map (λ c, 92 :: c) cs) end.

(** What was opened: something that was there, or a new object. *)
Inductive opened := Existing (i : N) | New (dir : N) (name : list N).

(** NtCreateFile by its disposition (0 supersede, 1 open, 2 create, 3 open or create,
    4 overwrite, 5 overwrite or create) and option bits: 0 directory, 6 not a directory,
    13 by identifier, 21 reparse points are opened themselves. *)
Definition finish (m : machine) (disposition options : Z) (w : walked) : result opened Z :=
  match w with
  | Stopped e => Err e
  | Missing d c =>
      if bool_decide (disposition ∈ [0; 2; 3; 5]%Z) then Ok (New d c)
      else Err STATUS_OBJECT_NAME_NOT_FOUND
  | Found i =>
      if (disposition =? 2)%Z then Err STATUS_OBJECT_NAME_COLLISION
      else
        match m_nodes m !! i with
        | Some (NDir _ _) =>
            if Z.testbit options 6 then Err STATUS_FILE_IS_A_DIRECTORY else Ok (Existing i)
        | Some _ =>
            if Z.testbit options 0 then Err STATUS_NOT_A_DIRECTORY else Ok (Existing i)
        | None => Err STATUS_OBJECT_NAME_NOT_FOUND
        end
  end.
(** The volume is named by the two first components; the rest, separators included, is the
    identifier. *)
Definition by_id (links : nat) (m : machine) (cs : list (list N)) : walked :=
  match walk links m true (m_root m) (take 2 cs) with
  | Found v =>
      let id := join_units (drop 2 cs) in
      if bool_decide (length id = 4%nat ∨ length id = 8%nat) then
        match m_ids m v id with
        | Some i => Found i
        | None => Stopped STATUS_INVALID_PARAMETER
        end
      else Stopped STATUS_INVALID_PARAMETER
  | Missing _ _ => Stopped STATUS_OBJECT_PATH_NOT_FOUND
  | Stopped e => Stopped e
  end.
Definition create_within (links : nat) (m : machine) (name : list N) (disposition options : Z)
  : result opened Z :=
  match name with
  | 92 :: rest =>
      let cs := split_units rest in
      if Z.testbit options 13 then finish m disposition options (by_id links m cs)
      else finish m disposition options (walk links m (negb (Z.testbit options 21)) (m_root m) cs)
  | _ => Err STATUS_OBJECT_NAME_INVALID
  end.
(** At most 63 reparse points are followed. *)
Definition MAX_REPARSE : nat := 63.
Definition nt_create : machine → list N → Z → Z → result opened Z := create_within MAX_REPARSE.
