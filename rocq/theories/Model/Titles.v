(** Title tables: class TitleLookup of /repo/flattentool/schema.py (47-96).

    Python's TitleLookup objects are mutable dicts that refer to one another; here
    they are numbered, a table is the list of all of them (number 0 is the table
    of the whole schema).  [s.lower()] is an oracle. *)
From Verif.Base Require Import PyStr PyNum PyVal PyDict Outcome.

Definition colon : N := 58%N.
Definition space : N := 32%N.

(** schema.py:47-48: [property_name] and the entries *)
Record tnodet := { tn_name : str; tn_data : list (str * nat) }.
Definition table := list tnodet.
Definition tn_empty : tnodet := {| tn_name := []; tn_data := [] |}.

Section Titles.
  (** [str.lower] *)
  Variable lw : str -> str.

  (** schema.py:83, 89, 95: the key of a title *)
  Definition title_key (t : str) : str := lw (remove_c space t).

  Definition t_node (T : table) (i : nat) : tnodet := nth i T tn_empty.
  (** schema.py:85-96: [title in self], [self[title]] *)
  Definition t_find (T : table) (i : nat) (t : str) : option nat := sget (title_key t) (tn_data (t_node T i)).

  Fixpoint t_update (i : nat) (f : tnodet -> tnodet) (T : table) : table :=
    match T, i with
    | [], _ => []
    | x :: T', O => f x :: T'
    | x :: T', S i' => x :: t_update i' f T'
    end.
  (** schema.py:271-273: a new object is put into table [i] under the title, and is
      given the name of the property *)
  Definition t_add (i : nat) (title name : str) (T : table) : table :=
    t_update i (fun x => {| tn_name := tn_name x; tn_data := sset (title_key title) (length T) (tn_data x) |}) T
      ++ [{| tn_name := name; tn_data := [] |}].

  (** schema.py:56-81 lookup_header_list *)
  Definition strip_spaces (s : str) : str := strip (fun c => (c =? space)%N) s.
  Fixpoint lookup_list (T : table) (i : nat) (l : list str) : str :=
    match l with
    | [] => []                                              (* not called with an empty list *)
    | first :: rest =>
      match parse_int first with
      | Some _ => first ++ match rest with [] => [] | _ => [47%N] ++ lookup_list T i rest end
      | None =>
        match t_find T i first with
        | Some j => tn_name (t_node T j) ++ match rest with [] => [] | _ => [47%N] ++ lookup_list T j rest end
        | None => join [47%N] (map strip_spaces l)
        end
      end
    end.
  (** schema.py:50-54 lookup_header, for a text *)
  Definition lookup_header (T : table) (i : nat) (h : str) : str := lookup_list T i (split_on colon h).
  (** the same for any heading *)
  Definition lookup_heading (T : table) (i : nat) (h : scalar) : scalar :=
    match h with SStr s => SStr (lookup_header T i s) | _ => h end.
End Titles.
