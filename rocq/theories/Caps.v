(** pyogp/lib/base/caps.py, with LLSDDeserializer of helpers.py *)
From Coq Require Import Ascii.
From Verif Require Export Llsd PyRegex.

(** What llsd.parse does on a document (external library: an oracle). *)
Inductive parse_result := ParseOk (v : llsd) | ParseError | ParseRaises (e : exn).

(** helpers.py:262-271, LLSDDeserializer.deserialize_string *)
Definition deserialize_string (parse : bytes -> parse_result) (data : bytes) : res llsd :=
  match parse data with
  | ParseError => Err DeserializationFailedErr
  | ParseRaises e => Err e
  | ParseOk r => if equals_false r then Err DeserializationFailedErr else Ok r
  end.

(** The body of a response: a byte string, or some other object. *)
Inductive body := BStr (s : bytes) | BOther.

(** helpers.py:255-260, LLSDDeserializer.deserialize: None for a non-string *)
Definition llsd_deserialize (parse : bytes -> parse_result) (data : body) : res llsd :=
  match data with
  | BStr s => deserialize_string parse s
  | BOther => Ok LUndef
  end.

(** What the REST client does (external: an oracle): a response with its
    Content-Type header, an HTTPError with its code, or another exception. *)
Inductive http_result :=
| Response (ctype : option string) (b : body)
| HttpError (code : Z)
| HttpRaises (e : exn).

(** s.split(";")[0] *)
Fixpoint before_semi (s : string) : string :=
  match s with
  | EmptyString => EmptyString
  | String c s' => if Ascii.eqb c ";"%char then EmptyString else String c (before_semi s')
  end.

(** A request made to the REST client. *)
Inductive request :=
| ReqGet (url : string)
| ReqPost (url : string) (payload : bytes) (headers : list (string * string)).

Record capability := { cap_name : string; cap_url : string; cap_client : nat }.

(** caps.py:75-79 and 121-125: HTTP errors *)
Definition http_error (url : string) (code : Z) (method : string) : exn :=
  if code =? 404 then ResourceNotFoundErr url else ResourceErr url code method.

(** caps.py:68-96, Capability.GET (custom_headers is not used) *)
Definition cap_GET (parse : bytes -> parse_result) (net : request -> http_result)
  (c : capability) (custom_headers : list (string * string)) : res llsd :=
  match net (ReqGet (cap_url c)) with
  | HttpError code => Err (http_error (cap_url c) code "GET")
  | HttpRaises e => Err e
  | Response None _ => Err KeyErr
  | Response (Some ct) b =>
      let ct := before_semi ct in
      if String.eqb ct "application/llsd+xml" then llsd_deserialize parse b
      else Err (DeserializerNotFoundErr ct)
  end.

(** caps.py:152: <\?xml\sversion="1.0"\s\?><llsd>.*?</llsd>.* *)
Definition llsd_re : re :=
  seqs [lit "<?xml"; Cls is_space; lit "version=""1"; Cls is_dot; lit "0"""; Cls is_space;
        lit "?><llsd>"; LStar is_dot; lit "</llsd>"; Star is_dot].

(** caps.py:146-168, _response_handler.  [pattern.match] on a non-string body
    is a TypeError. *)
Definition response_handler (parse : bytes -> parse_result) (ctype : option string) (b : body)
  : res llsd :=
  match ctype with
  | None => Err KeyErr
  | Some ct =>
      let ct := before_semi ct in
      do ok <- (if String.eqb ct "application/llsd+xml" || String.eqb ct "application/xml"
                then Ok true
                else if String.eqb ct "text/html" then
                  match b with
                  | BStr s => Ok match re_match llsd_re s with Some _ => true | None => false end
                  | BOther => Err TypeErr
                  end
                else Ok false);
      if (ok : bool) then llsd_deserialize parse b else Err (DeserializerNotFoundErr ct)
  end.

Definition post_raw (parse : bytes -> parse_result) (net : request -> http_result)
  (c : capability) (headers : list (string * string)) (payload : bytes) : res llsd :=
  match net (ReqPost (cap_url c) payload headers) with
  | HttpError code => Err (http_error (cap_url c) code "POST")
  | HttpRaises e => Err e
  | Response ct b => response_handler parse ct b
  end.

(** headers.update(custom_headers) *)
Definition update_headers (h custom : list (string * string)) : list (string * string) :=
  fold_left (fun h '(k, v) => sset k v h) custom h.

(** caps.py:98-127, Capability.POST.  [format] is llsd.format_xml (external:
    an oracle that may raise).  [type(payload)] must be list or dict; the
    DeserializerNotFound of line 109 carries the type, not modelled. *)
Definition cap_POST (parse : bytes -> parse_result) (format : llsd -> res bytes)
  (net : request -> http_result) (c : capability) (payload : llsd)
  (custom_headers : list (string * string)) : res llsd :=
  match payload with
  | LArr _ | LMap _ =>
      do data <- format payload;
      post_raw parse net c
        (update_headers [("Content-type", "application/llsd+xml")%string] custom_headers) data
  | _ => Err (DeserializerNotFoundErr "")
  end.

(** caps.py:129-144, POST_CUSTOM *)
Definition cap_POST_CUSTOM (parse : bytes -> parse_result) (net : request -> http_result)
  (c : capability) (headers : list (string * string)) (payload : bytes) : res llsd :=
  post_raw parse net c headers payload.

(** caps.py:177-192, SeedCapability.get.  URLs in the response are kept as the
    LLSD values they are. *)
Record newcap := { nc_name : string; nc_url : llsd; nc_client : nat }.
Definition seed_get (parse : bytes -> parse_result) (format : llsd -> res bytes)
  (net : request -> http_result) (c : capability) (names : list string)
  : res (list (string * newcap)) :=
  do r <- cap_POST parse format net c (LMap [("capabilities"%string, LArr (map LStr names))]) [];
  do parsed <- getitem r (LStr "capabilities");
  fold_left (fun acc name =>
               do caps <- acc;
               do u <- getitem parsed (LStr name);
               Ok (sset name {| nc_name := name; nc_url := u; nc_client := cap_client c |} caps))
            names (Ok []).
