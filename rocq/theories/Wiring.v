(** How dictionaries and tables reach the serializer and the deserializer:
    constructors of TemplateDictionary, UDPMessageSerializer,
    UDPMessageDeserializer, UDPDispatcher and MessageManager. *)
From Verif Require Export Dispatcher TemplateParser TemplateFile MessageXmlFile.

(** An open text file: its whole contents and the lines not yet read. *)
Record file := { f_text : bytes; f_left : list bytes }.
Definition open_file (text : bytes) : file :=
  {| f_text := text; f_left := split_lines [] text |}.

(** What may be passed as message_template / template_list. *)
Inductive targ :=
| TNone
| TFile (f : file)
| TOther.                          (* a true value that is not a file *)

(** template_dict.py:34-40 with template_parser.py:56-76: seek(0), read every
    line; the file is left exhausted. *)
Definition parse_file (pv : pyver) (f : file) : res (list template) * file :=
  (parse_template_file pv (f_text f), {| f_text := f_text f; f_left := [] |}).

(** template_dict.py:30-51, TemplateDictionary(template_list = None,
    message_template = t), with the message_template file afterwards.  The
    nested TemplateDictionary(template_list) of line 40 does to the same
    templates what lines 50-51 do again.
    [TOther] is not reachable from the constructors below. *)
Definition dict_from_template (pv : pyver) (t : targ) : res tdict * targ :=
  match t with
  | TNone => ((do ts <- parse_template_file pv template_text; build_dict pv ts), TNone)
  | TFile f =>
      let '(r, f) := parse_file pv f in
      ((do ts <- r; build_dict pv ts), TFile f)
  | TOther => (Err AttributeErr, TOther)
  end.

(** template_dict.py:30-51 called as TemplateDictionary(l): iterating over a
    file gives the lines left in it, and a line has no attribute [name]. *)
Definition dict_from_list (pv : pyver) (l : targ) : res tdict * targ :=
  match l with
  | TNone => dict_from_template pv TNone
  | TFile f =>
      (match f_left f with [] => build_dict pv [] | _ => Err AttributeErr end,
       TFile {| f_text := f_text f; f_left := tl (f_left f) |})
  | TOther => (Err TypeErr, TOther)
  end.

(** udpserializer.py:39-50, UDPMessageSerializer.__init__: the template goes
    where TemplateDictionary expects a list of templates. *)
Definition serializer_init (pv : pyver) (t : targ) (xml : option xmltable)
  : res (tdict * xmltable) * targ :=
  let '(r, t) := dict_from_list pv t in
  ((do d <- r; Ok (d, match xml with Some x => x | None => embedded_xml end)), t).

(** udpdeserializer.py:39-66, UDPMessageDeserializer.__init__ (the dictionary
    and table only) *)
Definition deserializer_init (pv : pyver) (t : targ) (xml : option xmltable)
  : res (tdict * xmltable) * targ :=
  let '(r, t) := dict_from_template pv t in
  ((do d <- r; Ok (d, match xml with Some x => x | None => embedded_xml end)), t).

(** The settings and subscribers a dispatcher is given. *)
Record dsettings := {
  ds_deferred : bool;
  ds_handle : bool;
  ds_handle_out : bool;
  ds_handler : bool;               (* was a message_handler passed in? *)
  ds_cb : sub -> message -> option exn }.

(** udpdispatcher.py:45-104, UDPDispatcher.__init__: [xml] is stored but not
    passed on; [log] at line 81 is not defined; without HANDLE_PACKETS and
    without a handler the attribute message_handler does not exist (line 101).
    The whole environment of the dispatcher is returned, and the template file
    as it is left.  Simplification: a message_xml object is its table. *)
Definition dispatcher_init (pv : pyver) (s : dsettings) (t : targ) (xml : option xmltable)
  : res denv * targ :=
  match t with
  | TOther => (Err NameErr, t)
  | _ =>
      if negb (ds_handler s) && negb (ds_handle s) then (Err AttributeErr, t) else
      let '(rd, t) := deserializer_init pv t None in
      match rd with
      | Err e => (Err e, t)
      | Ok (dd, dx) =>
          let '(rs, t) := serializer_init pv t None in
          match rs with
          | Err e => (Err e, t)
          | Ok (sd, sx) =>
              (Ok {| e_pv := pv; e_ser_dict := sd; e_ser_xml := sx;
                     e_des_dict := dd; e_des_xml := dx;
                     e_deferred := ds_deferred s; e_handle := ds_handle s;
                     e_handle_out := ds_handle_out s; e_cb := ds_cb s |}, t)
          end
      end
  end.

(** message_manager.py:41-112, MessageManager.__init__, as far as its
    dispatcher's environment is concerned.  The message.xml file is read and
    parsed into a table that is stored but not passed on (110-112); [xml_ok] is
    whether parsing it succeeds ([log] at lines 73 and 87 is not defined). *)
Inductive xarg := XNone | XFile (x : xmltable) (xml_ok : option exn) | XOther.
Definition manager_init (pv : pyver) (s : dsettings) (t : targ) (xml : xarg) : res denv * targ :=
  match t with
  | TOther => (Err NameErr, t)
  | _ =>
      match xml with
      | XOther => (Err NameErr, t)
      | XFile _ (Some e) => (Err e, t)
      | _ => dispatcher_init pv s t None
      end
  end.
