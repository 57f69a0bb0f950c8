(** Reading XML.

    Modelled code: flattentool/json_input.py:238-248, the call
    [xmltodict.parse(xml_file, force_list=(root_list_path,), force_cdata=True)],
    with what xmltodict's handler (startElement, characters, endElement,
    push_data) does with these arguments: names are kept with their prefix,
    comments are ignored, the texts of an element are joined and stripped.
    SIMPLIFICATION: the XML text itself is not modelled.  The document is given as
    its root element; the white space that [ET.tostring(pretty_print=True)] puts
    between elements (only in elements without text) is left out: joined and
    stripped, it is nothing. *)
From Verif.Base Require Import PyStr PyNum PyVal PyDict Outcome.
From Verif.Model Require Import Flatten SortXml XmlInput.

Section XmlDict.
  (** root_list_path; None with root_is_list *)
  Variable force : option str.
  Definition forced (k : str) : bool := match force with Some f => str_eqb k f | None => false end.
  (** xmltodict push_data *)
  Definition push_data (d : jobj) (k : str) (v : jv) : jobj :=
    match sget k d with
    | Some (JA l) => sset k (JA (l ++ [v])) d
    | Some x => sset k (JA [x; v]) d
    | None => if forced k then sset k (JA [v]) d else sset k v d
    end.
  (** xmltodict startElement to endElement: an element without attributes,
      children and text is None *)
  Fixpoint element_value (e : xel) : jv :=
    match e with
    | El _ a x cs =>
      let d := fold_left (fun d kv => push_data d (fst kv) (snd kv)) (map (fun c => (x_tag c, element_value c)) cs)
                         (map (fun kv => (64%N :: fst kv, JS (SStr (snd kv)))) a) in
      match d, strip is_ws (match x with Some t => t | None => [] end) with
      | [], [] => JS SNone
      | _, [] => JO d
      | _, t => JO (push_data d cdata_key (JS (SStr t)))
      end
    end.
  (** json_input.py:239-247: the value of the root element *)
  Definition root_value (e : xel) : jv :=
    let v := element_value e in if forced (x_tag e) then JA [v] else v.
End XmlDict.
