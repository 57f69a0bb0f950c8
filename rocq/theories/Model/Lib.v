(** Model of /repo/flattentool/lib.py. *)
From Verif.Base Require Import PyStr PyNum PyVal Outcome.
From Verif.Model Require Import Warn.
Local Open Scope res_scope.

Notation R := (res warning).

(** lib.py:1-6 isint (argument is always a str in the code that calls it) *)
Definition isint (s : str) : bool := match parse_int s with Some _ => true | None => false end.

(** The dict built by parse_sheet_configuration; an absent key is [None]
    / [false].  [sc_any] below is its truth value. *)
Record sheet_conf := {
  sc_skip : option Z;
  sc_header : option Z;
  sc_ignore : bool;
  sc_hash : bool;
  sc_xmlroot : option str;
  sc_rootlist : option str;
  sc_idname : option str }.
Definition empty_conf : sheet_conf :=
  {| sc_skip := None; sc_header := None; sc_ignore := false; sc_hash := false;
     sc_xmlroot := None; sc_rootlist := None; sc_idname := None |}.
(** truth value of the configuration dict (non-empty) *)
Definition sc_any (c : sheet_conf) : bool :=
  match c with
  | {| sc_skip := None; sc_header := None; sc_ignore := false; sc_hash := false;
       sc_xmlroot := None; sc_rootlist := None; sc_idname := None |} => false
  | _ => true
  end.

Definition set_skip v c := {| sc_skip := Some v; sc_header := sc_header c; sc_ignore := sc_ignore c; sc_hash := sc_hash c; sc_xmlroot := sc_xmlroot c; sc_rootlist := sc_rootlist c; sc_idname := sc_idname c |}.
Definition set_header v c := {| sc_skip := sc_skip c; sc_header := Some v; sc_ignore := sc_ignore c; sc_hash := sc_hash c; sc_xmlroot := sc_xmlroot c; sc_rootlist := sc_rootlist c; sc_idname := sc_idname c |}.
Definition set_ignore c := {| sc_skip := sc_skip c; sc_header := sc_header c; sc_ignore := true; sc_hash := sc_hash c; sc_xmlroot := sc_xmlroot c; sc_rootlist := sc_rootlist c; sc_idname := sc_idname c |}.
Definition set_hash c := {| sc_skip := sc_skip c; sc_header := sc_header c; sc_ignore := sc_ignore c; sc_hash := true; sc_xmlroot := sc_xmlroot c; sc_rootlist := sc_rootlist c; sc_idname := sc_idname c |}.
Definition set_xmlroot v c := {| sc_skip := sc_skip c; sc_header := sc_header c; sc_ignore := sc_ignore c; sc_hash := sc_hash c; sc_xmlroot := Some v; sc_rootlist := sc_rootlist c; sc_idname := sc_idname c |}.
Definition set_rootlist v c := {| sc_skip := sc_skip c; sc_header := sc_header c; sc_ignore := sc_ignore c; sc_hash := sc_hash c; sc_xmlroot := sc_xmlroot c; sc_rootlist := Some v; sc_idname := sc_idname c |}.
Definition set_idname v c := {| sc_skip := sc_skip c; sc_header := sc_header c; sc_ignore := sc_ignore c; sc_hash := sc_hash c; sc_xmlroot := sc_xmlroot c; sc_rootlist := sc_rootlist c; sc_idname := Some v |}.

(** lib.py:11-26, one iteration of the loop on a str item *)
Definition conf_item (c : sheet_conf) (item : str) : sheet_conf :=
  match split_ws item with
  | [k] =>
    let k := lower k in
    if str_eqb k (u "ignore") then set_ignore c
    else if str_eqb k (u "hashcomments") || str_eqb k (u "hashcomment") then set_hash c
    else c
  | [k; v] =>
    let k := lower k in
    if str_eqb k (u "skiprows") then
      match parse_int v with Some z => set_skip (Z.max z 0) c | None => c end
    else if str_eqb k (u "headerrows") then
      match parse_int v with Some z => set_header (Z.max z 1) c | None => c end
    else if str_eqb k (u "xmlroottag") then set_xmlroot v c
    else if str_eqb k (u "rootlistpath") then set_rootlist v c
    else if str_eqb k (u "idname") then set_idname v c
    else c
  | _ => c
  end.

(** lib.py:9-27 parse_sheet_configuration.  The items are raw cell values;
    [item.split()] on anything but a str is an AttributeError. *)
Fixpoint parse_sheet_configuration (l : list scalar) (c : sheet_conf) : R sheet_conf :=
  match l with
  | [] => ret c
  | SStr s :: l' => parse_sheet_configuration l' (conf_item c s)
  | _ :: _ => Raise EAttributeError []
  end.
