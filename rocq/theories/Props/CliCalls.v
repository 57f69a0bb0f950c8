(** C63, C64: the command line.  What a line says and what it means is in
    Spec/CommandLine.v, in terms of the words typed; [main] is the program, from
    its arguments to how it ends ([status] is the exit status) and what it does
    on the way. *)
From Verif.Base Require Import PyStr PyNum PyVal PyDict Outcome.
From Verif.Model Require Import Commands Cli.
From Verif.Spec Require Import CommandLine.
From Verif.Proofs Require Import CliMain.
From Verif.Tests Require Import TestLib CommandLib.
Local Open Scope list_scope.

(** ** C63: a line runs the function it names, with the values it gives *)
Theorem C63_template Wd pre ws gs n :
  Forall loud pre -> line_says template_command ws gs -> inputs gs = [] -> value_of [u "-s"; u "--schema"] gs <> None ->
  only [u "-f"; u "--output-format"] out_formats gs -> cut_at gs n ->
  main Wd (pre ++ u "create-template" :: words_of ws) =
  match create_template Wd (template_meaning gs n) with
  | Ok _ t => (Finished, t)
  | Raise EOSError t => (Reported EOSError, t)
  | Raise e t => (Failed (is_loud pre) e, t)
  end.
Proof. exact (template_main Wd pre ws gs n). Qed.
Print Assumptions C63_template.
Theorem C63_flatten Wd pre ws gs input n :
  Forall loud pre -> line_says flatten_command ws gs -> inputs gs = [input] ->
  only [u "-f"; u "--output-format"] out_formats gs -> cut_at gs n ->
  main Wd (pre ++ u "flatten" :: words_of ws) =
  match flatten_file Wd (flatten_meaning input gs n) with
  | Ok _ t => (Finished, t)
  | Raise e t => (Failed (is_loud pre) e, t)
  end.
Proof. exact (flatten_main Wd pre ws gs input n). Qed.
Print Assumptions C63_flatten.
Theorem C63_unflatten Wd pre ws gs input :
  Forall loud pre -> line_says unflatten_command ws gs -> inputs gs = [input] -> value_of [u "-f"; u "--input-format"] gs <> None ->
  only [u "-f"; u "--input-format"] in_formats gs ->
  main Wd (pre ++ u "unflatten" :: words_of ws) =
  match unflatten_file Wd (unflatten_meaning input gs) with
  | Ok _ t => (Finished, t)
  | Raise e t => (Failed (is_loud pre) e, t)
  end.
Proof. exact (unflatten_main Wd pre ws gs input). Qed.
Print Assumptions C63_unflatten.
(** the name of the input may not stand after --rollup without a value, or after
    the files of --xml-schema: it is taken for one more value, and the line is
    refused because it names no input *)
Theorem C63_rollup_swallows_refuted Wd pre ws gs input :
  Forall loud pre -> line_says flatten_command ws gs -> inputs gs = [] -> value_word input ->
  only [u "-f"; u "--output-format"] out_formats gs -> (forall v, In (Value (u "--truncation-length") v) gs -> exists z, parse_int v = Some z) ->
  main Wd (pre ++ u "flatten" :: words_of ws ++ [u "--rollup"; input]) = (UsageShown, []).
Proof. exact (rollup_swallows Wd pre ws gs input). Qed.
Print Assumptions C63_rollup_swallows_refuted.
Theorem C63_schemas_swallow_refuted Wd pre ws gs files input :
  Forall loud pre -> line_says unflatten_command ws gs -> inputs gs = [] -> Forall value_word files -> value_word input ->
  only [u "-f"; u "--input-format"] in_formats gs ->
  main Wd (pre ++ u "unflatten" :: words_of ws ++ u "--xml-schema" :: files ++ [input]) = (UsageShown, []).
Proof. exact (schemas_swallow Wd pre ws gs files input). Qed.
Print Assumptions C63_schemas_swallow_refuted.

(** *** the lines of the documentation, and others *)
Definition line_u : list word :=
  [Joined (u "-f") (u "csv"); Joined (u "--root-list-path") (u "cafe"); Plain (u "examples/cafe/"); Apart (u "-s") (u "cafe.schema"); Alone (u "--convert-titles")].
Definition items_u : list item :=
  [Value (u "-f") (u "csv"); Value (u "--root-list-path") (u "cafe"); Input (u "examples/cafe/"); Value (u "-s") (u "cafe.schema"); Switched (u "--convert-titles")].
Example C63_unflatten_meets : line_says unflatten_command line_u items_u /\ inputs items_u = [u "examples/cafe/"]
  /\ value_of [u "-f"; u "--input-format"] items_u <> None /\ only [u "-f"; u "--input-format"] in_formats items_u
  /\ words_of line_u = [u "-f=csv"; u "--root-list-path=cafe"; u "examples/cafe/"; u "-s"; u "cafe.schema"; u "--convert-titles"]
  /\ u_schema (unflatten_meaning (u "examples/cafe/") items_u) = u "cafe.schema" /\ u_titles (unflatten_meaning (u "examples/cafe/") items_u) = true.
Proof.
  split; [apply line_decided; vm_compute; reflexivity|]. split; [reflexivity|]. split; [vm_compute; discriminate|].
  split; [apply onlyb_ok; vm_compute; reflexivity|]. repeat split; reflexivity.
Qed.
(** abbreviated names, values in all the ways they can be written, the last one counts *)
Definition line_f : list word :=
  [Alone (u "--roll"); Stuck (u "-f") (u "xlsx"); Apart (u "--roll") (u "a"); Plain (u "in.json"); Joined (u "--trunc") (u "5"); Apart (u "--output-n") (u "x");
   Alone (u "--use"); Joined (u "-f") (u "csv"); Joined (u "-o") (u "-strange"); Apart (u "--sheet-prefix") (u "-")].
Definition items_f : list item :=
  [Switched (u "--rollup"); Value (u "-f") (u "xlsx"); Value (u "--rollup") (u "a"); Input (u "in.json"); Value (u "--truncation-length") (u "5");
   Value (u "--output-name") (u "x"); Switched (u "--use-titles"); Value (u "-f") (u "csv"); Value (u "-o") (u "-strange"); Value (u "--sheet-prefix") (u "-")].
Example C63_flatten_meets : line_says flatten_command line_f items_f /\ inputs items_f = [u "in.json"]
  /\ only [u "-f"; u "--output-format"] out_formats items_f /\ cut_at items_f 5
  /\ f_format (flatten_meaning (u "in.json") items_f 5) = u "csv" /\ f_output (flatten_meaning (u "in.json") items_f 5) = Some (u "-strange")
  /\ f_roll (flatten_meaning (u "in.json") items_f 5) = RollList [RTrue; RPath (u "a")].
Proof.
  split; [apply line_decided; vm_compute; reflexivity|]. split; [reflexivity|].
  split; [apply onlyb_ok; vm_compute; reflexivity|]. split; [apply cut_atb_ok; vm_compute; reflexivity|]. repeat split; vm_compute; reflexivity.
Qed.
Definition line_t : list word :=
  [Apart (u "--truncation-length") (u "5"); Joined (u "--schema") (u "cafe.schema"); Apart (u "-f") (u "csv"); Alone (u "--rollup"); Apart (u "-o") (u "out")].
Definition items_t : list item :=
  [Value (u "--truncation-length") (u "5"); Value (u "--schema") (u "cafe.schema"); Value (u "-f") (u "csv"); Switched (u "--rollup"); Value (u "-o") (u "out")].
Example C63_template_meets : line_says template_command line_t items_t /\ inputs items_t = [] /\ value_of [u "-s"; u "--schema"] items_t <> None
  /\ only [u "-f"; u "--output-format"] out_formats items_t /\ cut_at items_t 5
  /\ c_schema (template_meaning items_t 5) = u "cafe.schema" /\ c_trunc (template_meaning items_t 5) = 5%nat /\ c_rollup (template_meaning items_t 5) = true.
Proof.
  split; [apply line_decided; vm_compute; reflexivity|]. split; [reflexivity|]. split; [vm_compute; discriminate|].
  split; [apply onlyb_ok; vm_compute; reflexivity|]. split; [apply cut_atb_ok; vm_compute; reflexivity|]. repeat split; reflexivity.
Qed.
Example C63_swallows_meets : line_says flatten_command [Joined (u "-f") (u "csv")] [Value (u "-f") (u "csv")]
  /\ line_says unflatten_command [Joined (u "-f") (u "csv"); Alone (u "--xml")] [Value (u "-f") (u "csv"); Switched (u "--xml")]
  /\ value_word (u "in.json").
Proof. split; [apply line_decided; vm_compute; reflexivity|]. split; [apply line_decided; vm_compute; reflexivity|]. left. reflexivity. Qed.

(** ** C64: every line.  Either nothing is opened or written, or the function
    named is run once, on a word of the line, with a format that exists, and
    with no text that is not an end of one of the words or an unused option's
    value.  The exceptions: [--] and negative truncation lengths. *)
Theorem C64_any_line Wd argv e t : main Wd argv = (e, t) ->
  (t = [] /\ (e = UsageShown \/ e = HelpShown
              \/ e = NotModelled /\ (In (u "--") argv \/ exists s z, from_words argv s /\ parse_int s = Some z /\ (z < 0)%Z)))
  \/ exists c, call_stands argv c /\ (forall s, In s (call_texts c) -> In s unused_values \/ from_words argv s)
     /\ ((run_call Wd c = Ok tt t /\ e = Finished)
         \/ (exists x, run_call Wd c = Raise x t /\ exists verbose, e = Failed verbose x)
         \/ (exists C, c = CallTemplate C /\ run_call Wd c = Raise EOSError t /\ e = Reported EOSError)).
Proof. exact (any_main Wd argv e t). Qed.
Print Assumptions C64_any_line.
(** the exit status does not tell that create-template found no schema *)
Theorem C64_status_refuted Wd pre ws gs n t :
  Forall loud pre -> line_says template_command ws gs -> inputs gs = [] -> value_of [u "-s"; u "--schema"] gs <> None ->
  only [u "-f"; u "--output-format"] out_formats gs -> cut_at gs n ->
  create_template Wd (template_meaning gs n) = Raise EOSError t ->
  status (fst (main Wd (pre ++ u "create-template" :: words_of ws))) = 0%N.
Proof. intros H1 H2 H3 H4 H5 H6 H. rewrite (template_main Wd pre ws gs n H1 H2 H3 H4 H5 H6), H. reflexivity. Qed.
Print Assumptions C64_status_refuted.
Definition no_schema : world :=
  let Wd := test_world [] (Flatten.JA []) (Flatten.JA []) (Schema.VS SNone) in
  {| wd_schema := fun _ _ => inl EOSError; wd_json := wd_json Wd; wd_base := wd_base Wd; wd_xml := wd_xml Wd; wd_lines := wd_lines Wd; wd_isfile := wd_isfile Wd;
     wd_book := wd_book Wd; wd_xsd := wd_xsd Wd; wd_xsd_fuel := 0; wd_xenv := wd_xenv Wd; wd_wenv := wd_wenv Wd; wd_lower := wd_lower Wd; wd_shape := wd_shape Wd;
     wd_set_order := wd_set_order Wd; wd_conv := wd_conv Wd |}.
Example C64_meets :
  main no_schema [u "create-template"; u "-s"; u "missing"] = (Reported EOSError, [Opened (u "missing")])
  /\ main no_schema [u "-v"; u "flatten"; u "in.json"; u "-s"; u "missing"] = (Failed true EOSError, [Opened (u "missing")])
  /\ main no_schema [u "flatten"; u "in.json"; u "--s"; u "missing"] = (UsageShown, [])
  /\ main no_schema [u "unflatten"; u "in"] = (UsageShown, []) /\ main no_schema [] = (HelpShown, []) /\ main no_schema [u "flatten"; u "--"; u "in"] = (NotModelled, []).
Proof. repeat split; vm_compute; reflexivity. Qed.
