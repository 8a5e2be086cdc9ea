(** pyogp/lib/base/message/message_dot_xml.py *)
From Verif Require Export Prelude.

(** The 'messages' map of message.xml: for each name the value of 'flavor', or
    None if the entry has no 'flavor'. *)
Definition xmltable := list (string * option string).

(** message_dot_xml.py:53-62, MessageDotXML.validate_udp_msg *)
Definition validate_udp_msg (x : xmltable) (name : string) : res bool :=
  match sget name x with
  | Some (Some flavor) => Ok (String.eqb flavor "template")
  | Some None => Err KeyErr
  | None => Ok true
  end.
