(** Worlds for the executable tests of the commands: one spreadsheet, one base
    JSON, one JSON document, one schema. *)
From Verif.Base Require Import PyStr PyNum PyVal PyDict Outcome.
From Verif.Model Require Import Warn Lib Convert Input Json SourceMap Readers Flatten Schema TitleLines SortXml XmlInput XmlOut Csv Output Commands.
From Verif.Tests Require Import TestLib.

Definition cmd_floats (s : scalar) : float_result :=
  match s with
  | SInt z => FloatOk (FFin (z <? 0)%Z (Z.to_N (Z.abs z)) 0)
  | SFlt f => FloatOk f
  | SBool b => FloatOk (FFin false (if b then 1 else 0) 0)
  | _ => FloatValueError
  end.
Definition cmd_wenv : wenv :=
  {| we_env := test_env; we_str := fun _ => u "[]"; we_float := cmd_floats; we_cell := fun _ => None; we_title := fun _ => None; we_open := fun _ => None |}.
Definition cmd_xenv : xenv :=
  {| xe_env := test_env; xe_list_str := fun _ => []; xe_tag := fun _ => true; xe_attr := fun _ _ => true; xe_nsmap := fun _ => true; xe_text := fun _ => true |}.
Definition test_world (b : book) (base doc : jv) (schema : sv) : world :=
  {| wd_schema := fun _ _ => inr schema; wd_json := fun _ => inr doc; wd_base := fun _ => inr base; wd_xml := fun _ _ => inr doc;
     wd_lines := fun _ => inl EOther; wd_isfile := fun _ => false; wd_book := fun _ _ => inr b; wd_xsd := fun _ => inl EOther; wd_xsd_fuel := 0;
     wd_xenv := cmd_xenv; wd_wenv := cmd_wenv; wd_lower := lower; wd_shape := None; wd_set_order := fun l => l; wd_conv := fun _ _ => test_cenv |}.
(** the default options of unflatten, with an input format *)
Definition unflatten_opts (format : str) : uopts :=
  {| u_input := u "in"; u_base := None; u_format := Some format; u_output := Some (u "out.json"); u_path := None; u_root_list := false;
     u_zone := u "UTC"; u_root_id := u "ocid"; u_schema := []; u_titles := false; u_cells := []; u_heads := []; u_id_name := None;
     u_xml := false; u_vertical := false; u_meta := None; u_meta_only := false; u_meta_schema := []; u_meta_vertical := false;
     u_xsds := None; u_conf := []; u_local_off := false; u_comment := None; u_trunc := 3; u_wkt := false |}.
Definition with_base (file : str) (U : uopts) : uopts :=
  {| u_input := u_input U; u_base := Some file; u_format := u_format U; u_output := u_output U; u_path := u_path U; u_root_list := u_root_list U;
     u_zone := u_zone U; u_root_id := u_root_id U; u_schema := u_schema U; u_titles := u_titles U; u_cells := u_cells U; u_heads := u_heads U; u_id_name := u_id_name U;
     u_xml := u_xml U; u_vertical := u_vertical U; u_meta := u_meta U; u_meta_only := u_meta_only U; u_meta_schema := u_meta_schema U; u_meta_vertical := u_meta_vertical U;
     u_xsds := u_xsds U; u_conf := u_conf U; u_local_off := u_local_off U; u_comment := u_comment U; u_trunc := u_trunc U; u_wkt := u_wkt U |}.
Definition with_list (U : uopts) : uopts :=
  {| u_input := u_input U; u_base := u_base U; u_format := u_format U; u_output := u_output U; u_path := u_path U; u_root_list := true;
     u_zone := u_zone U; u_root_id := u_root_id U; u_schema := u_schema U; u_titles := u_titles U; u_cells := u_cells U; u_heads := u_heads U; u_id_name := u_id_name U;
     u_xml := u_xml U; u_vertical := u_vertical U; u_meta := u_meta U; u_meta_only := u_meta_only U; u_meta_schema := u_meta_schema U; u_meta_vertical := u_meta_vertical U;
     u_xsds := u_xsds U; u_conf := u_conf U; u_local_off := u_local_off U; u_comment := u_comment U; u_trunc := u_trunc U; u_wkt := u_wkt U |}.
Definition with_meta (name : str) (only : bool) (U : uopts) : uopts :=
  {| u_input := u_input U; u_base := u_base U; u_format := u_format U; u_output := u_output U; u_path := u_path U; u_root_list := u_root_list U;
     u_zone := u_zone U; u_root_id := u_root_id U; u_schema := u_schema U; u_titles := u_titles U; u_cells := u "cells"; u_heads := u "heads"; u_id_name := u_id_name U;
     u_xml := u_xml U; u_vertical := u_vertical U; u_meta := Some name; u_meta_only := only; u_meta_schema := u_meta_schema U; u_meta_vertical := true;
     u_xsds := u_xsds U; u_conf := u_conf U; u_local_off := u_local_off U; u_comment := u_comment U; u_trunc := u_trunc U; u_wkt := u_wkt U |}.
(** the default options of flatten *)
Definition flatten_opts (format : str) : flopts :=
  {| f_input := u "in.json"; f_schema := []; f_output := None; f_format := format; f_main := u "main"; f_path := u "main"; f_root_list := false;
     f_prefix := []; f_filter_field := None; f_filter_value := None; f_preserve := []; f_roll := RollFalse; f_root_id := []; f_titles := false;
     f_xml := false; f_id_name := u "id"; f_local_off := false; f_drop := false; f_trunc := 3; f_term := u "CRLF"; f_wkt := false |}.
Definition template_opts (format : str) : copts :=
  {| c_schema := u "schema.json"; c_output := None; c_format := format; c_main := u "main"; c_rollup := false; c_root_id := []; c_titles := false;
     c_local_off := false; c_trunc := 3; c_nodep := false; c_term := u "CRLF"; c_wkt := false |}.
