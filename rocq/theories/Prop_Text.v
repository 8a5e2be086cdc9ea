(** Theorems about UUIDs, helpers and settings: C50, C51, C52, C58. *)
From Verif Require Import Lib SpecText TextProofs Settings Packer.

(** ** C50 *)

(** Any text spelling 32 hexadecimal digits, of either case and with hyphens
    anywhere, is parsed to its value; with another number of digits it raises
    ValueError. *)
Theorem C50_parse : forall s ds, spells s ds ->
  uuid_parse s = if zlen ds =? 32 then Ok (base16 ds) else Err ValueErr.
Proof. exact uuid_parse_spells. Qed.
Print Assumptions C50_parse.

(** Exactly which texts a UUID can be made of, and of which value: besides the
    usual forms also ones padded with white space, or with a plus sign, 0x or L in
    place of digits.  Every other text raises ValueError. *)
Theorem C50_accepts : forall s u, uuid_parse s = Ok u <-> uuid_text_of s u.
Proof. exact uuid_parse_text. Qed.
Print Assumptions C50_accepts.
Theorem C50_rejects : forall s e, uuid_parse s = Err e <-> e = ValueErr /\ forall u, ~ uuid_text_of s u.
Proof.
  intros s e. split.
  - intros H. split; [exact (uuid_parse_error s e H)|]. intros u T. apply uuid_parse_text in T. congruence.
  - intros (-> & N). destruct (uuid_parse s) as [u|e] eqn:E; [exfalso; now apply (N u), uuid_parse_text|].
    now rewrite (uuid_parse_error s e E).
Qed.
Print Assumptions C50_rejects.
Theorem C50_parsed_range : forall s u, uuid_parse s = Ok u -> is_uuid u.
Proof. exact uuid_text_range. Qed.
Print Assumptions C50_parsed_range.

(** str(u) is the lower-case digits of u, grouped 8-4-4-4-12. *)
Theorem C50_text_form : forall u, is_uuid u -> exists ds a b c d e,
  base16 ds = u /\ grouped a b c d e (uuid_str u) /\ Forall2 lower_char (a ++ b ++ c ++ d ++ e) ds.
Proof. exact uuid_text. Qed.
Print Assumptions C50_text_form.

Theorem C50_parse_str : forall u, is_uuid u -> uuid_parse (uuid_str u) = Ok u.
Proof. exact uuid_parse_str. Qed.
Print Assumptions C50_parse_str.

Theorem C50_copy : forall u, is_uuid u -> uuid_copy u = Ok u.
Proof. exact uuid_parse_str. Qed.
Print Assumptions C50_copy.

(** Equal iff a UUID of the same value; a value of any other kind is different. *)
Theorem C50_equality : forall u other, uuid_eq u other = true <-> other = VUUID u.
Proof.
  intros u other. destruct other; cbn; try (split; discriminate).
  rewrite Z.eqb_eq. split; congruence.
Qed.
Print Assumptions C50_equality.

(** xor is bitwise... *)
Theorem C50_xor_bits : forall u v, is_uuid u -> is_uuid v -> exists w,
  uuid_xor u v = Ok w /\ is_uuid w /\
  forall i, 0 <= i -> Z.testbit w i = xorb (Z.testbit u i) (Z.testbit v i).
Proof.
  intros u v U V. exists (Z.lxor u v). split; [now apply uuid_xor_spec|].
  split; [now apply lxor_uuid|]. intros i _. apply Z.lxor_spec.
Qed.
Print Assumptions C50_xor_bits.

(** ... hence commutative, associative, self-inverse, with the nil UUID neutral. *)
Theorem C50_xor_algebra : forall u v w, is_uuid u -> is_uuid v -> is_uuid w ->
  uuid_xor u v = uuid_xor v u /\
  (do x <- uuid_xor u v; uuid_xor x w) = (do y <- uuid_xor v w; uuid_xor u y) /\
  (do x <- uuid_xor u v; uuid_xor x v) = Ok u /\
  uuid_xor u u = Ok 0 /\
  uuid_xor u 0 = Ok u.
Proof.
  intros u v w U V W. rewrite !uuid_xor_spec by (auto using lxor_uuid; unfold is_uuid; lia). cbn [bind].
  rewrite !uuid_xor_spec by auto using lxor_uuid.
  split; [now rewrite (Z.lxor_comm v u)|].
  split; [now rewrite Z.lxor_assoc|].
  split; [now rewrite Z.lxor_assoc, Z.lxor_nilpotent, Z.lxor_0_r|].
  now rewrite Z.lxor_nilpotent, Z.lxor_0_r.
Qed.
Print Assumptions C50_xor_algebra.

(** get_bytes gives the 16 bytes of the value, most significant first; reading
    them back at any offset of any buffer gives the UUID. *)
Theorem C50_bytes : forall u pre post, is_uuid u ->
  zlen (uuid_get_bytes u) = 16 /\ value_msb_first (uuid_get_bytes u) = u /\
  uuid_unpack (pre ++ uuid_get_bytes u ++ post) (zlen pre) = Ok u.
Proof. exact uuid_bytes_roundtrip. Qed.
Print Assumptions C50_bytes.

Theorem C50_bytes_short : forall pre s, zlen s < 16 -> uuid_unpack (pre ++ s) (zlen pre) = Err ValueErr.
Proof. exact uuid_unpack_short. Qed.
Print Assumptions C50_bytes_short.

(** random() stores and returns the fresh uuid if the UUID is nil, and
    otherwise changes nothing and returns None. *)
Theorem C50_random : forall u fresh, is_uuid u ->
  uuid_random u fresh = if u =? 0 then (fresh, Some fresh) else (u, None).
Proof. exact uuid_random_spec. Qed.
Print Assumptions C50_random.

Example C50_case : is_uuid (2 ^ 128 - 1) /\
  uuid_str 0x00112233445566778899aabbccddeeff = bytes_of_string "00112233-4455-6677-8899-aabbccddeeff" /\
  uuid_parse (bytes_of_string "00112233445566778899AABBCCDD-eeff") = Ok 0x00112233445566778899aabbccddeeff /\
  uuid_parse (bytes_of_string "urn:uuid:{00112233-4455-6677-8899-aabbccddeeff}")
    = Ok 0x00112233445566778899aabbccddeeff /\
  uuid_parse (bytes_of_string "0011") = Err ValueErr /\
  uuid_xor 0xff 0x0f = Ok 0xf0.
Proof. unfold is_uuid. repeat split; try lia; vm_compute; reflexivity. Qed.
(** 31 blanks and a digit; 0x and 30 digits; 31 digits and L; a sign and 31
    digits; "urn:" within "urn:" and hyphens anywhere. *)
Example C50_case_odd :
  uuid_parse (repeat x20 31 ++ [x37]) = Ok 7 /\
  uuid_parse (bytes_of_string "0x00000000-0000-0000-0000-0000000000ff") = Err ValueErr /\
  uuid_parse (bytes_of_string "0x000000-0000-0000-0000-0000000000ff") = Ok 255 /\
  uuid_parse (bytes_of_string "00000000-0000-0000-0000-00000000ffL-") = Err ValueErr /\
  uuid_parse (bytes_of_string "00000000-0000-0000-0000-00000000-0ffL") = Ok 255 /\
  uuid_parse (bytes_of_string "{+urn:0000000-0000-0000-0000-0000000000ff}}") = Ok 255 /\
  uuid_parse (bytes_of_string "uurn:rn:00000000000000000000000000000000") = Err ValueErr /\
  uuid_text_of (repeat x20 31 ++ [x37]) 7.
Proof. repeat split; try (vm_compute; reflexivity). apply C50_accepts. vm_compute. reflexivity. Qed.
Example C50_spells_case : exists ds, spells (bytes_of_string "0a-F") ds /\ base16 ds = 0xaf.
Proof.
  exists [0; 10; 15]. split; [|reflexivity].
  apply spells_digit; [split; [lia|left; reflexivity]|].
  apply spells_digit; [split; [lia|left; reflexivity]|].
  apply spells_hyphen.
  apply spells_digit; [split; [lia|right; reflexivity]|]. constructor.
Qed.

(** ** C51 *)
Theorem C51_int_to_bytes : forall pv n, exists b,
  int_to_bytes pv n = Ok b /\ zlen b = 4 /\ value_lsb_first b = n mod 2 ^ 32.
Proof. exact int_to_bytes_spec. Qed.
Print Assumptions C51_int_to_bytes.

Theorem C51_inverted_by_unpacking : forall pv n b, int_to_bytes pv n = Ok b ->
  unpack_data b (Some MVT_U32) (-1) (-1) None = Ok (VInt (n mod 2 ^ 32)).
Proof.
  intros pv n b H. destruct (int_to_bytes_spec pv n) as (b' & E & L & V).
  rewrite E in H. injection H as ->.
  rewrite CodecProofs.unpack_whole. unfold unpack_raw. cbn.
  unfold unpack_int. assert (List.length b = 4%nat) as -> by (unfold zlen in L; lia). cbn.
  rewrite <- CodecProofs.value_lsb_le, V. reflexivity.
Qed.
Print Assumptions C51_inverted_by_unpacking.

Example C51_case : int_to_bytes Py26 (-2) = Ok [xfe; xff; xff; xff]
  /\ int_to_bytes Py27 (2 ^ 70 + 0x01020304) = Ok [x04; x03; x02; x01].
Proof. split; vm_compute; reflexivity. Qed.

(** ** C52 *)
Theorem C52_bytes_to_hex : forall data, exists pairs,
  Forall2 hex_pair pairs data /\ bytes_to_hex data = joined pairs.
Proof. exact bytes_to_hex_spec. Qed.
Print Assumptions C52_bytes_to_hex.

Theorem C52_length : forall data, zlen (bytes_to_hex data) = Z.max 0 (3 * zlen data - 1).
Proof. intros data. rewrite bytes_to_hex_joined. apply joined_len. Qed.
Print Assumptions C52_length.

Theorem C52_injective : forall a b, bytes_to_hex a = bytes_to_hex b -> a = b.
Proof. exact bytes_to_hex_inj. Qed.
Print Assumptions C52_injective.

(** hex_to_ascii returns exactly the bytes its argument spells in pairs of
    digits, and raises DataParsingError when it spells none (odd length, or a
    character that is not a digit). *)
Theorem C52_hex_to_ascii : forall s,
  (forall d, hex_to_ascii s = Ok d <-> hex_pairs s d) /\
  (forall e, hex_to_ascii s = Err e <-> (e = DataParsingErr /\ ~ exists d, hex_pairs s d)).
Proof. intros s. split; [apply hex_to_ascii_ok|apply hex_to_ascii_err]. Qed.
Print Assumptions C52_hex_to_ascii.

Theorem C52_inverse_without_spaces : forall data,
  hex_to_ascii (spaces_removed (bytes_to_hex data)) = Ok data.
Proof. exact hex_roundtrip. Qed.
Print Assumptions C52_inverse_without_spaces.

Theorem C52_not_inverse_with_spaces : forall data, 2 <= zlen data ->
  hex_to_ascii (bytes_to_hex data) = Err DataParsingErr.
Proof. exact hex_with_spaces. Qed.
Print Assumptions C52_not_inverse_with_spaces.

Theorem C52_odd_length_raises : forall s, Z.odd (zlen s) = true -> hex_to_ascii s = Err DataParsingErr.
Proof.
  intros s O. apply hex_to_ascii_err. split; [reflexivity|]. intros [d H].
  apply hex_pairs_even in H. rewrite H, Z.odd_mul in O. discriminate.
Qed.
Print Assumptions C52_odd_length_raises.

Example C52_case : bytes_to_hex [x00; xff; x1a] = bytes_of_string "00 FF 1A"
  /\ hex_to_ascii (bytes_of_string "00fF1A") = Ok [x00; xff; x1a]
  /\ hex_to_ascii (bytes_of_string "0g") = Err DataParsingErr.
Proof. repeat split; vm_compute; reflexivity. Qed.

(** ** C58 *)
Definition logging_switches (s : settings) : list bool :=
  [LOG_VERBOSE s; ENABLE_BYTES_TO_HEX_LOGGING s; ENABLE_CAPS_LOGGING s; ENABLE_CAPS_LLSD_LOGGING s;
   ENABLE_EQ_LOGGING s; ENABLE_UDP_LOGGING s; ENABLE_OBJECT_LOGGING s; LOG_SKIPPED_PACKETS s;
   ENABLE_HOST_LOGGING s; LOG_COROUTINE_SPAWNS s; PROXY_LOGGING s].

Theorem C58_quiet_overrides : forall spammy log_tests,
  let s := mk_settings true spammy log_tests in
  (forall b, In b (logging_switches s) -> b = false) /\ DISABLE_SPAMMERS s = true.
Proof.
  intros [] []; cbn; (split; [|reflexivity]); intros b H; tauto || (repeat destruct H as [<-|H]; auto; destruct H).
Qed.
Print Assumptions C58_quiet_overrides.

Theorem C58_without_quiet : forall spammy log_tests,
  let s := mk_settings false spammy log_tests in
  ENABLE_BYTES_TO_HEX_LOGGING s = spammy /\ ENABLE_CAPS_LLSD_LOGGING s = spammy /\
  DISABLE_SPAMMERS s = negb spammy /\ PROXY_LOGGING s = false /\
  LOG_VERBOSE s = true /\ ENABLE_CAPS_LOGGING s = true /\ ENABLE_EQ_LOGGING s = true /\
  ENABLE_UDP_LOGGING s = true /\ ENABLE_OBJECT_LOGGING s = true /\ LOG_SKIPPED_PACKETS s = true /\
  ENABLE_HOST_LOGGING s = true /\ LOG_COROUTINE_SPAWNS s = true.
Proof. intros [] []; cbn; tauto. Qed.
Print Assumptions C58_without_quiet.

Theorem C58_the_rest_is_fixed : forall quiet spammy log_tests,
  let s := mk_settings quiet spammy log_tests in
  HANDLE_PACKETS s = true /\ HANDLE_OUTGOING_PACKETS s = false /\
  ENABLE_DEFERRED_PACKET_PARSING s = true /\ ENABLE_REGION_EVENT_QUEUE s = true /\
  REGION_EVENT_QUEUE_POLL_INTERVAL s = 1 /\
  UDP_SPAMMERS s = ["PacketAck"; "AgentUpdate"]%string /\
  ENABLE_LOGGING_IN_TESTS s = log_tests.
Proof. intros [] [] []; cbn; tauto. Qed.
Print Assumptions C58_the_rest_is_fixed.
