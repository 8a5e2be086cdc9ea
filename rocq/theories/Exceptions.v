(** pyogp/lib/base/exc.py *)
From Coq Require Import Ascii.
From Verif Require Export Prelude.
Local Open Scope string_scope.
Local Open Scope list_scope.

(** exc.py:23-361, the classes.  [PyException] is Python's Exception. *)
Inductive xclass :=
| PyException
| XError | XAgentError | XLoginError | XParseStartLocError
| XNetworkError | XHTTPError | XResourceNotFound | XResourceError
| XSerializationError
| XDeserializationError | XDeserializerNotFound | XCredentialDeserializerNotFound | XDeserializationFailed
| XMessageSystemError | XMessageTemplateNotFound | XMessageTemplateParsingError | XCircuitNotFound
| XMessageBuildingError | XMessageSerializationError | XMessageDeserializationError | XDataUnpackingError
| XAgentDomainError | XUserNotFound | XUserNotAuthorized | XUserRezFailed
| XRegionDomainError | XRegionSeedCapNotAvailable | XRegionCapNotAvailable | XRegionMessageError
| XDataParsingError | XNotImplemented | XDeprecated.

(** The base in each class statement (lines 23, 26, 29, 38, ...). *)
Definition base (c : xclass) : option xclass :=
  match c with
  | PyException => None
  | XError => Some PyException
  | XAgentError | XLoginError => Some XError
  | XParseStartLocError => Some XLoginError
  | XNetworkError => Some XError
  | XHTTPError | XResourceNotFound | XResourceError => Some XNetworkError
  | XSerializationError => Some XError
  | XDeserializationError => Some XError
  | XDeserializerNotFound | XCredentialDeserializerNotFound | XDeserializationFailed => Some XDeserializationError
  | XMessageSystemError => Some XError
  | XMessageTemplateNotFound | XMessageTemplateParsingError | XCircuitNotFound | XMessageBuildingError
  | XMessageSerializationError | XMessageDeserializationError | XDataUnpackingError => Some XMessageSystemError
  | XAgentDomainError => Some XError
  | XUserNotFound | XUserNotAuthorized | XUserRezFailed => Some XAgentDomainError
  | XRegionDomainError => Some XError
  | XRegionSeedCapNotAvailable | XRegionCapNotAvailable | XRegionMessageError => Some XRegionDomainError
  | XDataParsingError | XNotImplemented | XDeprecated => Some XError
  end.

Scheme Equality for xclass.

(** Whether [except d] catches an exception of class [c]: Python walks up the
    bases (here at most five of them). *)
Fixpoint catches_in (fuel : nat) (d c : xclass) : bool :=
  xclass_beq c d ||
  match fuel, base c with
  | S n, Some p => catches_in n d p
  | _, _ => false
  end.
Definition catches (d c : xclass) : bool := catches_in 5 d c.

(** Objects given to an exception: text, a tuple, or any other object, known by
    a number.  Simplification: no unicode objects. *)
Inductive pyobj := PStr (s : string) | PTuple (l : list pyobj) | PNone | POther (n : nat).

(** str(o); [show] is what Python prints for anything but a string.
    Simplification: str() of the objects given does not raise. *)
Definition text (show : pyobj -> string) (o : pyobj) : string :=
  match o with PStr s => s | _ => show o end.

(** fmt % args for a format with %s only *)
Fixpoint pyformat (fmt : string) (args : list string) : res string :=
  match fmt with
  | EmptyString => match args with [] => Ok EmptyString | _ => Err TypeErr end
  | String c1 fmt' =>
      match fmt' with
      | String c2 fmt'' =>
          if (Ascii.eqb c1 "%"%char && Ascii.eqb c2 "s"%char)%bool
          then match args with
               | [] => Err TypeErr
               | a :: args' => do r <- pyformat fmt'' args'; Ok (append a r)
               end
          else do r <- pyformat fmt' args; Ok (String c1 r)
      | EmptyString => do r <- pyformat fmt' args; Ok (String c1 r)
      end
  end.
(** fmt % (x), which is fmt % x: a tuple supplies all the arguments *)
Definition percent (show : pyobj -> string) (fmt : string) (x : pyobj) : res string :=
  pyformat fmt (match x with PTuple l => map (text show) l | _ => [text show x] end).

(** The parameters of __init__ with their defaults; None for the classes that do
    not define it (lines 32, 41, 55, 72, 85, 115, 127, 140, 159, 172, 185, 198,
    211, 224, 237, 259, 271, 283, 299, 314, 327, 342, 353, 364). *)
Definition params (c : xclass) : option (list (string * option pyobj)) :=
  let d s := Some (PStr s) in
  match c with
  | XLoginError | XParseStartLocError => Some [("error", None)]
  | XHTTPError => Some [("code", None); ("msg", None); ("fp", None); ("details", d "")]
  | XResourceNotFound => Some [("url", d "")]
  | XResourceError => Some [("url", d ""); ("code", d ""); ("message", d ""); ("body", d ""); ("method", d "GET")]
  | XDeserializerNotFound => Some [("content_type", d "")]
  | XCredentialDeserializerNotFound => Some [("payload", d "")]
  | XDeserializationFailed => Some [("payload", d ""); ("reason", d "")]
  | XMessageTemplateNotFound | XMessageTemplateParsingError => Some [("context", d ""); ("template", d "")]
  | XCircuitNotFound => Some [("host", d ""); ("reason", d "")]
  | XMessageBuildingError | XMessageSerializationError | XMessageDeserializationError =>
      Some [("label", d ""); ("reason", d "")]
  | XDataUnpackingError => Some [("data", d ""); ("reason", d "")]
  | XUserNotFound | XUserNotAuthorized => Some [("credentials", Some PNone)]
  | XUserRezFailed | XRegionMessageError => Some [("region", Some PNone)]
  | XRegionSeedCapNotAvailable => Some [("reason", Some PNone)]
  | XRegionCapNotAvailable => Some [("cap", Some PNone)]
  | XDataParsingError | XNotImplemented => Some [("error", Some PNone)]
  | XDeprecated => Some [("thing", Some PNone)]
  | _ => None
  end.

(** Python's binding of the arguments of a call to parameters: positional ones
    first, then keywords one by one, then defaults. *)
Fixpoint place (ps : list (string * option pyobj)) (pos : list pyobj) : res (list (option pyobj)) :=
  match ps, pos with
  | _, [] => Ok (map (fun _ => None) ps)
  | [], _ => Err TypeErr                                   (* takes at most n arguments *)
  | _ :: ps', a :: pos' => do r <- place ps' pos'; Ok (Some a :: r)
  end.
Fixpoint set_slot (ps : list (string * option pyobj)) (slots : list (option pyobj)) (k : string) (v : pyobj)
  : res (list (option pyobj)) :=
  match ps, slots with
  | (n, _) :: ps', s :: slots' =>
      if String.eqb n k
      then match s with Some _ => Err TypeErr (* multiple values *) | None => Ok (Some v :: slots') end
      else do r <- set_slot ps' slots' k v; Ok (s :: r)
  | _, _ => Err TypeErr                                     (* unexpected keyword *)
  end.
Fixpoint set_slots (ps : list (string * option pyobj)) (slots : list (option pyobj)) (kw : list (string * pyobj))
  : res (list (option pyobj)) :=
  match kw with
  | [] => Ok slots
  | (k, v) :: kw' => do slots <- set_slot ps slots k v; set_slots ps slots kw'
  end.
Fixpoint fill (ps : list (string * option pyobj)) (slots : list (option pyobj)) : res (list (string * pyobj)) :=
  match ps, slots with
  | (n, d) :: ps', s :: slots' =>
      match (match s with Some v => Some v | None => d end) with
      | None => Err TypeErr                                 (* takes at least n arguments *)
      | Some v => do r <- fill ps' slots'; Ok ((n, v) :: r)
      end
  | _, _ => Ok []
  end.
Definition bind_args (ps : list (string * option pyobj)) (pos : list pyobj) (kw : list (string * pyobj))
  : res (list (string * pyobj)) :=
  do s <- place ps pos; do s <- set_slots ps s kw; fill ps s.

(** An exception: its class, the attributes __init__ set, and the positional
    arguments, which BaseException.__new__ keeps in [args] whatever __init__ does.
    Each __init__ stores every parameter in the attribute of the same name
    (33, 42, 57-60, 73, 86-90, 116, 128, 141-142, 160-161, 173-174, 186-187,
    199-200, 212-213, 225-226, 238-239, 261, 273, 285, 302, 317, 330, 345, 356, 367). *)
Record exception := { x_class : xclass; x_attrs : list (string * pyobj); x_args : list pyobj }.
Definition construct (c : xclass) (pos : list pyobj) (kw : list (string * pyobj)) : res exception :=
  match params c with
  | Some ps => do a <- bind_args ps pos kw; Ok {| x_class := c; x_attrs := a; x_args := pos |}
  | None => match kw with
            | [] => Ok {| x_class := c; x_attrs := []; x_args := pos |}
            | _ => Err TypeErr                              (* does not take keyword arguments *)
            end
  end.
(** self.name *)
Definition attr (x : exception) (n : string) : res pyobj :=
  match sget n (x_attrs x) with Some v => Ok v | None => Err AttributeErr end.

(** BaseException.__str__ *)
Definition base_str (show : pyobj -> string) (x : exception) : string :=
  match x_args x with
  | [] => EmptyString
  | [a] => text show a
  | l => show (PTuple l)
  end.

(** The __str__ methods: 35-36, 44-45, 62-64, 75-76, 92-94, 118-119, 130-131,
    144-145, 163-164, 176-177, 189-190, 202-203, 215-216, 228-229, 241-242,
    304-305, 332-333, 347-348, 358-359, 369-370; str() rejects a __str__ that
    does not return text. *)
Definition str (show : pyobj -> string) (x : exception) : res string :=
  let one fmt n := do v <- attr x n; percent show fmt v in
  let many fmt ns :=
    do vs <- fold_right (fun n r => do v <- attr x n; do vs <- r; Ok (v :: vs)) (Ok []) ns;
    percent show fmt (PTuple vs) in
  match x_class x with
  | XLoginError => one "Agent login error: %s" "error"
  | XParseStartLocError => Ok "Invalid start location specified, using defaults in settings"%string
  | XHTTPError => many "%s %s" ["code"; "msg"]
  | XResourceNotFound => do v <- attr x "url"; match v with PStr s => Ok s | _ => Err TypeErr end
  | XResourceError => many "Error using '%s' on resource '%s': %s (%s)" ["method"; "url"; "message"; "code"]
  | XDeserializerNotFound => one "deserialization for '%s' not supported" "content_type"
  | XCredentialDeserializerNotFound => one "deserialization for payload '%s' not supported" "payload"
  | XDeserializationFailed => many "deserialization failed for '%s', reason: '%s'" ["payload"; "reason"]
  | XMessageTemplateNotFound => one "No message template found, context: '%s'" "context"
  | XMessageTemplateParsingError => one "Error parsing message template, context: '%s'" "context"
  | XCircuitNotFound => many "No circuit to '%s' found, reason: '%s'" ["host"; "reason"]
  | XMessageBuildingError => many "Error serializing '%s' due to reason: '%s'" ["label"; "reason"]
  | XMessageSerializationError => many "Error serializing '%s' due to reason: '%s'" ["label"; "reason"]
  | XMessageDeserializationError => many "Error deserializing '%s' due to reason: '%s'" ["label"; "reason"]
  | XDataUnpackingError => many "Error serializing '%s' due to reason: '%s'" ["data"; "reason"]
  | XRegionSeedCapNotAvailable => one "Region seed capability not found when %s'" "reason"
  | XRegionMessageError => one "Agent has no udp connection enabled for: %s'" "region"
  | XDataParsingError => one "Data parsing error: %s'" "error"
  | XNotImplemented => one "This method has to be implemented here: %s" "error"
  | XDeprecated => one "This thing is deprecated: %s" "thing"
  | _ => Ok (base_str show x)
  end.

(** The class of an exception of the model ([Prelude.exn]), for those that are
    raised as classes of exc.py in the code (the raise statements cited there:
    data_unpacker.py:77,83, udpserializer.py:125,145,161, udpdeserializer.py:130,
    154,213,333,359, factory.py:69-116, helpers.py:69,268,270, caps.py:77-161). *)
Definition class_of (e : exn) : option xclass :=
  match e with
  | DataUnpackingErr => Some XDataUnpackingError
  | MessageSerializationErr _ _ => Some XMessageSerializationError
  | MessageDeserializationErr => Some XMessageDeserializationError
  | MessageTemplateNotFoundErr => Some XMessageTemplateNotFound
  | DataParsingErr => Some XDataParsingError
  | MessageBuildingErr _ _ => Some XMessageBuildingError
  | ResourceNotFoundErr _ => Some XResourceNotFound
  | ResourceErr _ _ _ => Some XResourceError
  | DeserializerNotFoundErr _ => Some XDeserializerNotFound
  | DeserializationFailedErr => Some XDeserializationFailed
  | _ => None
  end.
