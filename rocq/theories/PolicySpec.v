(** Independent vocabulary for the meaning of a path policy.
    Nothing here refers to the maps, the component walk or the string functions of
    the model: paths are lists of components, rules are API calls. *)
From stdpp Require Import prelude.
From Verif Require Import Bytes.

(** A name usable as a path component. *)
Definition good_name (sep : byte) (c : str) : Prop :=
  c ≠ [] ∧ sep ∉ c ∧ c ≠ lit "." ∧ c ≠ lit "..".

(** The textual form of a component list: a separator before each name. *)
Definition render (sep : byte) (cs : list str) : str := concat (map (cons sep) cs).

(** [p] names the path [cs], optionally written with one trailing separator. *)
Definition names (sep : byte) (p : str) (cs : list str) : Prop :=
  p = render sep cs ∨ p = render sep cs ++ [sep].

(** Canonical absolute Linux path. *)
Definition canonical (cs : list str) : Prop := cs ≠ [] ∧ Forall (good_name slash) cs.

Inductive right := RRead | RWrite | RBlockReaders | RBlockWriters | RBlockDeleters.
