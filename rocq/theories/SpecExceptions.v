(** Vocabulary for the statements about exceptions (C75). *)
From Verif Require Export Exceptions.
Local Open Scope string_scope.
Local Open Scope list_scope.

(** [c] is [d] or derived from it. *)
Inductive inherits : xclass -> xclass -> Prop :=
| inherits_self c : inherits c c
| inherits_base c p d : base c = Some p -> inherits p d -> inherits c d.

(** The eleven families below Error, each with its members. *)
Definition families : list (xclass * list xclass) :=
  [(XAgentError, []);
   (XLoginError, [XParseStartLocError]);
   (XNetworkError, [XHTTPError; XResourceNotFound; XResourceError]);
   (XSerializationError, []);
   (XDeserializationError, [XDeserializerNotFound; XCredentialDeserializerNotFound; XDeserializationFailed]);
   (XMessageSystemError, [XMessageTemplateNotFound; XMessageTemplateParsingError; XCircuitNotFound; XMessageBuildingError;
      XMessageSerializationError; XMessageDeserializationError; XDataUnpackingError]);
   (XAgentDomainError, [XUserNotFound; XUserNotAuthorized; XUserRezFailed]);
   (XRegionDomainError, [XRegionSeedCapNotAvailable; XRegionCapNotAvailable; XRegionMessageError]);
   (XDataParsingError, []); (XNotImplemented, []); (XDeprecated, [])].

(** The parameters of each class: the required ones, those that default to the
    empty text, the method (GET), those that default to None. *)
Definition required (c : xclass) : list string :=
  match c with XLoginError | XParseStartLocError => ["error"] | XHTTPError => ["code"; "msg"; "fp"] | _ => [] end.
Definition empty_by_default (c : xclass) : list string :=
  match c with
  | XHTTPError => ["details"]
  | XResourceNotFound => ["url"]
  | XResourceError => ["url"; "code"; "message"; "body"]
  | XDeserializerNotFound => ["content_type"]
  | XCredentialDeserializerNotFound => ["payload"]
  | XDeserializationFailed => ["payload"; "reason"]
  | XMessageTemplateNotFound | XMessageTemplateParsingError => ["context"; "template"]
  | XCircuitNotFound => ["host"; "reason"]
  | XMessageBuildingError | XMessageSerializationError | XMessageDeserializationError => ["label"; "reason"]
  | XDataUnpackingError => ["data"; "reason"]
  | _ => []
  end.
Definition none_by_default (c : xclass) : list string :=
  match c with
  | XUserNotFound | XUserNotAuthorized => ["credentials"]
  | XUserRezFailed | XRegionMessageError => ["region"]
  | XRegionSeedCapNotAvailable => ["reason"]
  | XRegionCapNotAvailable => ["cap"]
  | XDataParsingError | XNotImplemented => ["error"]
  | XDeprecated => ["thing"]
  | _ => []
  end.
Definition signature (c : xclass) : list (string * option pyobj) :=
  map (fun n => (n, None)) (required c) ++ map (fun n => (n, Some (PStr ""))) (empty_by_default c) ++
  match c with XResourceError => [("method", Some (PStr "GET"))] | _ => [] end ++
  map (fun n => (n, Some PNone)) (none_by_default c).

(** What a call gives to the [i]-th parameter, named [n], with default [d]. *)
Definition supplied (pos : list pyobj) (kw : list (string * pyobj)) (i : nat) (n : string) (d : option pyobj) : option pyobj :=
  match nth_error pos i with
  | Some v => Some v
  | None => match sget n kw with Some v => Some v | None => d end
  end.
(** A call is well formed: not too many positional arguments, every keyword
    names a parameter that no positional argument fills, and no required one is
    missing. *)
Definition well_called (ps : list (string * option pyobj)) (pos : list pyobj) (kw : list (string * pyobj)) : Prop :=
  (List.length pos <= List.length ps)%nat /\
  (forall k, In k (map fst kw) -> exists i d, nth_error ps i = Some (k, d) /\ (List.length pos <= i)%nat) /\
  (forall i n d, nth_error ps i = Some (n, d) -> supplied pos kw i n d <> None).

(** The text of an exception whose attributes print as [a]; None for the classes
    that leave it to Python. *)
Definition says (c : xclass) (a : string -> string) : option string :=
  match c with
  | XLoginError => Some ("Agent login error: " ++ a "error")
  | XParseStartLocError => Some "Invalid start location specified, using defaults in settings"
  | XHTTPError => Some (a "code" ++ " " ++ a "msg")
  | XResourceNotFound => Some (a "url")
  | XResourceError => Some ("Error using '" ++ a "method" ++ "' on resource '" ++ a "url" ++ "': " ++ a "message" ++ " (" ++ a "code" ++ ")")
  | XDeserializerNotFound => Some ("deserialization for '" ++ a "content_type" ++ "' not supported")
  | XCredentialDeserializerNotFound => Some ("deserialization for payload '" ++ a "payload" ++ "' not supported")
  | XDeserializationFailed => Some ("deserialization failed for '" ++ a "payload" ++ "', reason: '" ++ a "reason" ++ "'")
  | XMessageTemplateNotFound => Some ("No message template found, context: '" ++ a "context" ++ "'")
  | XMessageTemplateParsingError => Some ("Error parsing message template, context: '" ++ a "context" ++ "'")
  | XCircuitNotFound => Some ("No circuit to '" ++ a "host" ++ "' found, reason: '" ++ a "reason" ++ "'")
  | XMessageBuildingError | XMessageSerializationError =>
      Some ("Error serializing '" ++ a "label" ++ "' due to reason: '" ++ a "reason" ++ "'")
  | XMessageDeserializationError => Some ("Error deserializing '" ++ a "label" ++ "' due to reason: '" ++ a "reason" ++ "'")
  | XDataUnpackingError => Some ("Error serializing '" ++ a "data" ++ "' due to reason: '" ++ a "reason" ++ "'")
  | XRegionSeedCapNotAvailable => Some ("Region seed capability not found when " ++ a "reason" ++ "'")
  | XRegionMessageError => Some ("Agent has no udp connection enabled for: " ++ a "region" ++ "'")
  | XDataParsingError => Some ("Data parsing error: " ++ a "error" ++ "'")
  | XNotImplemented => Some ("This method has to be implemented here: " ++ a "error")
  | XDeprecated => Some ("This thing is deprecated: " ++ a "thing")
  | _ => None
  end%string.
(** The classes whose text is made from a single attribute, which a tuple spoils. *)
Definition single (c : xclass) : option string :=
  match c with
  | XLoginError | XDataParsingError | XNotImplemented => Some "error"
  | XDeserializerNotFound => Some "content_type"
  | XCredentialDeserializerNotFound => Some "payload"
  | XMessageTemplateNotFound | XMessageTemplateParsingError => Some "context"
  | XRegionSeedCapNotAvailable => Some "reason"
  | XRegionMessageError => Some "region"
  | XDeprecated => Some "thing"
  | _ => None
  end.
(** How the attributes of an exception print. *)
Definition printed (show : pyobj -> string) (x : exception) (n : string) : string :=
  match attr x n with Ok v => text show v | Err _ => EmptyString end.
(** What Python prints for the others: the positional arguments. *)
Definition python_text (show : pyobj -> string) (args : list pyobj) : string :=
  match args with [] => EmptyString | [a] => text show a | _ => show (PTuple args) end.
