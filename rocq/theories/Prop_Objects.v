(** Theorems about Vector3 and Quaternion objects, the text of a vector, base64
    and uuencoded text, and packed floats: C64, C65, C66, C67.
    Vocabulary: SpecObjects.v, SpecFloats.v. *)
From Coq Require Import Reals Lra.
From Flocq Require Import Core BinarySingleNaN.
From Verif Require Import Objects Packer Lib SpecCodec SpecFloats SpecObjects FloatRound FloatField
  ObjectTextProofs ObjectProofs.
Open Scope Z_scope.

(** ** C64 *)

(** Floats are kept, ints and bools rounded to the nearest double; an int too
    large for a double raises OverflowError. *)
Theorem C64_coordinates : forall txt a b c, a_number a -> a_number b -> a_number c ->
  (~ too_big a -> ~ too_big b -> ~ too_big c -> exists x y z,
     vec3_new txt None 0 a b c = Ok (x, y, z) /\ coordinate a x /\ coordinate b y /\ coordinate c z) /\
  (too_big a \/ too_big b \/ too_big c -> vec3_new txt None 0 a b c = Err OverflowErr).
Proof. exact vec3_coordinates. Qed.
Print Assumptions C64_coordinates.
Theorem C64_quaternion_coordinates : forall txt a b c d,
  a_number a -> a_number b -> a_number c -> a_number d ->
  (~ too_big a -> ~ too_big b -> ~ too_big c -> ~ too_big d -> exists x y z w,
     quat_new txt None 0 a b c d = Ok (x, y, z, w) /\
     coordinate a x /\ coordinate b y /\ coordinate c z /\ coordinate d w) /\
  (too_big a \/ too_big b \/ too_big c \/ too_big d -> quat_new txt None 0 a b c d = Err OverflowErr).
Proof. exact quat_coordinates. Qed.
Print Assumptions C64_quaternion_coordinates.
(** A coordinate that is neither a number nor a text (None, a tuple, a vector, an
    id) raises TypeError. *)
Theorem C64_other_coordinates : forall txt o a b c d,
  Forall (fun v => (a_number v /\ ~ too_big v) \/ (~ a_number v /\ ~ a_text v)) [a; b; c; d] ->
  (Exists (fun v => ~ a_number v) [a; b; c] -> vec3_new txt None o a b c = Err TypeErr) /\
  (Exists (fun v => ~ a_number v) [a; b; c; d] -> quat_new txt None o a b c d = Err TypeErr).
Proof.
  intros txt o a b c d F. split; intros X; [apply vec3_other; [|exact X]|now apply quat_other].
  inversion F as [|? ? Ha F1]; subst. inversion F1 as [|? ? Hb F2]; subst. inversion F2 as [|? ? Hc _]; subst.
  apply Forall_cons; [exact Ha|]. apply Forall_cons; [exact Hb|]. apply Forall_cons; [exact Hc|apply Forall_nil].
Qed.
Print Assumptions C64_other_coordinates.
Example C64_ex_other : ~ a_number VNone /\ ~ a_text VNone /\ a_number (VBool true) /\
  vec3_new (fun _ => Err ValueErr) None 0 (VBool true) VNone VNone = Err TypeErr.
Proof.
  repeat split; try (intros [[x H]|[x H]]; discriminate H). right. eexists. reflexivity.
Qed.

Theorem C64_copy : forall txt x y z w,
  vec3_copy txt (x, y, z) = Ok (x, y, z) /\ quat_copy txt (x, y, z, w) = Ok (x, y, z, w).
Proof. split; reflexivity. Qed.
Print Assumptions C64_copy.

(** get_bytes: the F32 encodings one after the other. *)
Theorem C64_vector_bytes : forall x y z s, vec3_get_bytes x y z = Ok s <->
  exists a b c, written_f32 x a /\ written_f32 y b /\ written_f32 z c /\ s = a ++ b ++ c.
Proof. exact vec3_bytes. Qed.
Print Assumptions C64_vector_bytes.
Theorem C64_quaternion_bytes : forall x y z w s, quat_get_bytes x y z w = Ok s <->
  exists a b c d, written_f32 x a /\ written_f32 y b /\ written_f32 z c /\ written_f32 w d /\
    s = a ++ b ++ c ++ d.
Proof. exact quat_bytes. Qed.
Print Assumptions C64_quaternion_bytes.

(** The constructors read them at any offset of any buffer, whatever the other
    arguments are; with fewer than twelve bytes left they raise struct.error. *)
Theorem C64_vector_read : forall txt pre a b c post x y z vx vy vz,
  read_f32 x a -> read_f32 y b -> read_f32 z c ->
  vec3_new txt (Some (pre ++ (a ++ b ++ c) ++ post)) (zlen pre) vx vy vz = Ok (x, y, z).
Proof. exact vec3_read. Qed.
Print Assumptions C64_vector_read.
Theorem C64_quaternion_read : forall txt pre a b c d post x y z w vx vy vz vw,
  read_f32 x a -> read_f32 y b -> read_f32 z c -> read_f32 w d ->
  quat_new txt (Some (pre ++ (a ++ b ++ c ++ d) ++ post)) (zlen pre) vx vy vz vw = Ok (x, y, z, w).
Proof. exact quat_read. Qed.
Print Assumptions C64_quaternion_read.
Theorem C64_short : forall txt pre s vx vy vz vw, zlen s < 12 ->
  vec3_new txt (Some (pre ++ s)) (zlen pre) vx vy vz = Err StructError /\
  quat_new txt (Some (pre ++ s)) (zlen pre) vx vy vz vw = Err StructError.
Proof. intros. split; [now apply vec3_short|now apply quat_short]. Qed.
Print Assumptions C64_short.

(** Bytes -> object -> bytes is the identity unless a component is NaN. *)
Theorem C64_bytes_roundtrip : forall txt s vx vy vz, zlen s = 12 -> exists x y z,
  vec3_new txt (Some s) 0 vx vy vz = Ok (x, y, z) /\
  (x <> S754_nan -> y <> S754_nan -> z <> S754_nan -> vec3_get_bytes x y z = Ok s).
Proof.
  intros txt s vx vy vz H.
  assert (E : exists a b c, s = a ++ b ++ c /\ zlen a = 4 /\ zlen b = 4 /\ zlen c = 4).
  { exists (firstn 4 s), (firstn 4 (skipn 4 s)), (skipn 8 s).
    split. { rewrite <- (firstn_skipn 4 s) at 1. f_equal. rewrite <- (firstn_skipn 4 (skipn 4 s)) at 1. f_equal.
      change 8%nat with (4 + 4)%nat. now rewrite skipn_skipn. }
    unfold zlen in *. rewrite !firstn_length, !skipn_length. lia. }
  destruct E as (a & b & c & -> & La & Lb & Lc).
  destruct (read_exists a La) as [x Hx]. destruct (read_exists b Lb) as [y Hy]. destruct (read_exists c Lc) as [z Hz].
  exists x, y, z. split.
  - pose proof (vec3_read txt [] a b c [] x y z vx vy vz Hx Hy Hz) as R. cbn [List.app] in R.
    rewrite app_nil_r in R. exact R.
  - intros Nx Ny Nz. apply vec3_bytes. exists a, b, c.
    split; [now apply read_written|]. split; [now apply read_written|]. split; [now apply read_written|reflexivity].
Qed.
Print Assumptions C64_bytes_roundtrip.

(** dist_squared is symmetric, for all coordinates... *)
Theorem C64_distance_symmetric : forall a b, dist_squared a b = dist_squared b a.
Proof. exact dist_sym. Qed.
Print Assumptions C64_distance_symmetric.
(** ... never negative... *)
Theorem C64_distance_nonneg : forall a b, valid3 a -> valid3 b ->
  positive_or_zero (dist_squared a b) \/ dist_squared a b = S754_nan.
Proof. exact dist_nonneg. Qed.
Print Assumptions C64_distance_nonneg.
(** ... and zero from a point to itself. *)
Theorem C64_distance_self : forall a, valid3 a -> finite3 a -> dist_squared a a = S754_zero false.
Proof. exact dist_self. Qed.
Print Assumptions C64_distance_self.
(** Its value: the sum of the squared differences, each operation rounded... *)
Theorem C64_distance_value : forall a b, moderate3 509 a -> moderate3 509 b ->
  finite_float (dist_squared a b) /\ rv (dist_squared a b) = rounded_sum (differences a b).
Proof.
  intros a b Ha Hb. destruct (dist_value 509 a b ltac:(lia) Ha Hb) as [F R].
  split; [now apply fin64_finite|exact R].
Qed.
Print Assumptions C64_distance_value.
(** ... so that points no further apart in any coordinate are never further apart. *)
Theorem C64_distance_monotone : forall a b c d,
  moderate3 509 a -> moderate3 509 b -> moderate3 509 c -> moderate3 509 d ->
  (let '(dx, dy, dz) := differences a b in let '(ex, ey, ez) := differences c d in
   Rabs dx <= Rabs ex /\ Rabs dy <= Rabs ey /\ Rabs dz <= Rabs ez)%R ->
  (rv (dist_squared a b) <= rv (dist_squared c d))%R.
Proof.
  intros a b c d Ha Hb Hc Hd H.
  destruct (dist_value 509 a b ltac:(lia) Ha Hb) as [_ ->]. destruct (dist_value 509 c d ltac:(lia) Hc Hd) as [_ ->].
  destruct (differences a b) as [[dx dy] dz], (differences c d) as [[ex ey] ez]. destruct H as (H1 & H2 & H3).
  now apply rounded_sum_mono.
Qed.
Print Assumptions C64_distance_monotone.
(** But two different points can be at distance zero: the square underflows. *)
Theorem C64_distance_zero_not_equal : exists a b, a <> b /\ moderate3 509 a /\ moderate3 509 b /\
  dist_squared a b = S754_zero false.
Proof.
  exists (fzero, fzero, fzero), (S754_finite false 4503599627370496 (-652), fzero, fzero).
  split; [discriminate|].
  assert (Z : moderate 509 fzero).
  { split; [reflexivity|]. split; [exact I|]. unfold rv, fzero, SF2R. rewrite Rabs_R0. apply (bpow_ge_0 radix2 509). }
  assert (Y : moderate 509 (S754_finite false 4503599627370496 (-652))).
  { split; [reflexivity|]. split; [exact I|]. unfold rv, SF2R, F2R. cbn [Fnum Fexp cond_Zopp].
    change (IZR (Z.pos 4503599627370496)) with (bpow radix2 52). rewrite <- bpow_plus.
    rewrite Rabs_pos_eq by apply bpow_ge_0. apply bpow_le. lia. }
  split; [split; [exact Z|split; exact Z]|]. split; [split; [exact Y|split; exact Z]|]. vm_compute. reflexivity.
Qed.
Print Assumptions C64_distance_zero_not_equal.
Definition two_f := S754_finite false 4503599627370496 (-51).
Example C64_ex :
  vec3_new (fun _ => Err ValueErr) None 0 (VInt 1) (VFloat two_f) (VBool true) = Ok (fone, two_f, fone) /\
  vec3_new (fun _ => Err ValueErr) None 0 (VInt 1) (VStr [x61]) VNone = Err ValueErr /\
  vec3_get_bytes fone two_f fzero = Ok [x00; x00; x80; x3f; x00; x00; x00; x40; x00; x00; x00; x00] /\
  vec3_new (fun _ => Err ValueErr) (Some [x07; x00; x00; x80; x3f; x00; x00; x00; x40; x00; x00; x00; x00]) 1 VNone VNone VNone
    = Ok (fone, two_f, fzero) /\
  dist_squared (fone, two_f, fzero) (fzero, fzero, fzero) = S754_finite false 5629499534213120 (-50) /\
  valid3 (fone, two_f, fzero) /\ finite3 (fone, two_f, fzero) /\ read_f32 fone [x00; x00; x80; x3f].
Proof. repeat split; vm_compute; reflexivity. Qed.

(** ** C65: Vector3.parse; [txt] is float() on a text *)

(** Every text has its fields: what is between the commas once the angle
    brackets are removed; and every field its trimmed form. *)
Theorem C65_fields : forall s, exists! fs, has_fields s fs.
Proof.
  intros s. destruct (fields_exist s) as [fs H]. exists fs. split; [exact H|]. intros fs' H'.
  eapply fields_unique; eauto.
Qed.
Print Assumptions C65_fields.
Theorem C65_trimmed : forall s, exists! t, trimmed s t.
Proof.
  intros s. destruct (trimmed_exists s) as [t H]. exists t. split; [exact H|]. intros t' H'.
  eapply trimmed_unique; eauto.
Qed.
Print Assumptions C65_trimmed.
Theorem C65_three : forall txt s a b c a' b' c', has_fields s [a; b; c] ->
  trimmed a a' -> trimmed b b' -> trimmed c c' ->
  vec3_parse txt s = (do x <- txt a'; do y <- txt b'; do z <- txt c'; Ok (x, y, z)).
Proof. exact parse_three. Qed.
Print Assumptions C65_three.
Theorem C65_other : forall txt s fs, has_fields s fs -> List.length fs <> 3%nat ->
  vec3_parse txt s = Err ValueErr.
Proof. exact parse_other. Qed.
Print Assumptions C65_other.
(** If float() raises nothing but ValueError, neither does parse. *)
Theorem C65_only_value_error : forall txt, (forall t e, txt t = Err e -> e = ValueErr) ->
  forall s e, vec3_parse txt s = Err e -> e = ValueErr.
Proof.
  intros txt Ht s e. destruct (fields_exist s) as [fs Hf].
  destruct (Nat.eq_dec (List.length fs) 3) as [E|E].
  - destruct fs as [|a [|b [|c [|]]]]; try discriminate E.
    destruct (trimmed_exists a) as [a' Ha]. destruct (trimmed_exists b) as [b' Hb]. destruct (trimmed_exists c) as [c' Hc].
    rewrite (parse_three txt s a b c a' b' c') by assumption.
    destruct (txt a') eqn:Ea; cbn [bind]; [|intros [= <-]; eauto].
    destruct (txt b') eqn:Eb; cbn [bind]; [|intros [= <-]; eauto].
    destruct (txt c') eqn:Ec; cbn [bind]; [discriminate|intros [= <-]; eauto].
  - rewrite (parse_other txt s fs) by assumption. congruence.
Qed.
Print Assumptions C65_only_value_error.
(** Parsing what str() printed: the coordinates go through the printed text
    and back, nothing else is lost. *)
Theorem C65_printed : forall txt show x y z,
  Forall (fun f => Forall (fun c => ~ In c [x3c; x3e; x2c] /\ ~ white c) (show f)) [x; y; z] ->
  vec3_parse txt (vec3_repr show (x, y, z)) =
  (do x <- txt (show x); do y <- txt (show y); do z <- txt (show z); Ok (x, y, z)).
Proof.
  intros txt show x y z H. inversion H as [|? ? Hx H']; subst. inversion H' as [|? ? Hy H'']; subst.
  inversion H'' as [|? ? Hz _]; subst. now apply parse_repr.
Qed.
Print Assumptions C65_printed.
(** a float() that knows one numeral *)
Definition float_one (t : bytes) : res pyfloat :=
  if list_eq_dec Byte.byte_eq_dec t (bytes_of_string "1.0") then Ok fone else Err ValueErr.
Example C65_ex :
  vec3_parse float_one (bytes_of_string "<1.0, 1.0,  1.0 >") = Ok (fone, fone, fone) /\
  vec3_parse float_one (bytes_of_string "1.0,1.0,1.0") = Ok (fone, fone, fone) /\
  vec3_parse float_one (bytes_of_string "<1.0, 1.0>") = Err ValueErr /\
  vec3_parse float_one (bytes_of_string "1.0, 1.0, x") = Err ValueErr /\
  vec3_repr (fun _ => bytes_of_string "1.0") (fone, fone, fone) = bytes_of_string "<1.0, 1.0, 1.0>" /\
  has_fields (bytes_of_string "<a, b,c>") [bytes_of_string "a"; bytes_of_string " b"; bytes_of_string "c"] /\
  trimmed (bytes_of_string " b") (bytes_of_string "b").
Proof.
  repeat split; try (vm_compute; reflexivity).
  - discriminate.
  - repeat constructor; cbn; intros H; decompose [or] H; easy.
  - exists [x20], []. repeat split; auto; try (repeat constructor); intros ? [|? [|]]; cbn; intros [= <-] H;
      cbn in H; decompose [or] H; easy.
Qed.

(** ** C66: base64 and uuencoded text *)
Theorem C66_base64 : forall data, exists ds text pad,
  bytes_to_base64 data = text ++ repeat x3d pad ++ [x0a] /\ Forall2 base64_char text ds /\
  sixbit data ds /\ 6 * zlen ds - 8 * zlen data < 6 /\ (pad <= 2)%nat /\
  zlen text + Z.of_nat pad = 4 * ((zlen data + 2) / 3).
Proof. exact base64_text. Qed.
Print Assumptions C66_base64.
Theorem C66_base64_injective : forall a b, bytes_to_base64 a = bytes_to_base64 b -> a = b.
Proof. exact base64_inj. Qed.
Print Assumptions C66_base64_injective.
Theorem C66_uuencoded : forall data, zlen data <= 45 -> exists c ds text,
  bytes_to_ascii data = Ok ([c] ++ text ++ [x0a]) /\ uu_char c (zlen data) /\
  Forall2 uu_char text ds /\ sixbit data ds /\ zlen text = 4 * ((zlen data + 2) / 3).
Proof. exact uu_text. Qed.
Print Assumptions C66_uuencoded.
Theorem C66_uuencoded_injective : forall a b t, bytes_to_ascii a = Ok t -> bytes_to_ascii b = Ok t -> a = b.
Proof. exact uu_inj. Qed.
Print Assumptions C66_uuencoded_injective.
Theorem C66_uuencoded_too_long : forall data, 45 < zlen data -> bytes_to_ascii data = Err BinasciiErr.
Proof. exact uu_too_long. Qed.
Print Assumptions C66_uuencoded_too_long.
Example C66_ex :
  bytes_to_base64 (bytes_of_string "hello") = bytes_of_string "aGVsbG8=" ++ [x0a] /\
  bytes_to_ascii (bytes_of_string "hello") = Ok (bytes_of_string "%:&5L;&\ " ++ [x0a]) /\
  bytes_to_ascii (repeat x00 46) = Err BinasciiErr /\
  sixbit [xff] [63; 48] /\ base64_char x2f 63 /\ uu_char x60 64 = (0 <= 64 < 64 /\ byte_value x60 = 96).
Proof. repeat split; try (vm_compute; reflexivity); vm_compute; discriminate. Qed.

(** ** C67: packed floats; [wide] selects the two-byte format *)
Theorem C67_value : forall wide lo hi pre b post u,
  moderate 1000 lo -> moderate 1000 hi -> code (code_bytes wide) b u -> exists f,
  unpack_code wide (pre ++ b ++ post) (zlen pre) lo hi = Ok f /\ valid64 f = true /\ finite_float f /\
  rv f = interpolated (code_max wide) (rv lo) (rv hi) u.
Proof.
  intros wide lo hi pre b post u Hl Hh Hc. destruct (packed_ok wide lo hi pre b post u 1000 ltac:(lia) Hl Hh Hc) as (f & E & F & R).
  exists f. destruct (fin64_finite f F). auto.
Qed.
Print Assumptions C67_value.
Theorem C67_short : forall wide pre b lo hi, zlen b < code_bytes wide ->
  unpack_code wide (pre ++ b) (zlen pre) lo hi = Err StructError.
Proof. exact packed_short. Qed.
Print Assumptions C67_short.
(** A larger code never gives a smaller value. *)
Theorem C67_monotone : forall wide lo hi b u b' u' f f',
  moderate 1000 lo -> moderate 1000 hi -> (rv lo <= rv hi)%R ->
  code (code_bytes wide) b u -> code (code_bytes wide) b' u' -> u <= u' ->
  unpack_code wide b 0 lo hi = Ok f -> unpack_code wide b' 0 lo hi = Ok f' -> (rv f <= rv f')%R.
Proof.
  intros wide lo hi b u b' u' f f' Hl Hh H C C' Hu E E'.
  destruct (packed_ok wide lo hi [] b [] u 1000 ltac:(lia) Hl Hh C) as (g & G & _ & R).
  destruct (packed_ok wide lo hi [] b' [] u' 1000 ltac:(lia) Hl Hh C') as (g' & G' & _ & R').
  cbn [List.app] in G, G'. rewrite app_nil_r in G, G'. change (zlen []) with 0 in G, G'.
  rewrite E in G. rewrite E' in G'. injection G as <-. injection G' as <-. rewrite R, R'.
  apply interp_mono; [exact H|]. destruct C as [_ C]. rewrite <- C in *. split; [|exact Hu].
  rewrite CodecProofs.value_lsb_le. apply le_val_range.
Qed.
Print Assumptions C67_monotone.
(** When the width of the interval is itself a double: the codes 0 and max give
    the ends, every code a value inside the interval, except that a value
    smaller than a step becomes zero. *)
Theorem C67_ends : forall wide lo hi f g, moderate 1000 lo -> moderate 1000 hi ->
  rn64 (rv hi - rv lo) = (rv hi - rv lo)%R ->
  unpack_code wide (repeat x00 (Z.to_nat (code_bytes wide))) 0 lo hi = Ok f ->
  unpack_code wide (repeat xff (Z.to_nat (code_bytes wide))) 0 lo hi = Ok g ->
  (rv f = if Rlt_bool (Rabs (rv lo)) (step_of (code_max wide) (rv lo) (rv hi)) then 0 else rv lo)%R /\
  (rv g = if Rlt_bool (Rabs (rv hi)) (step_of (code_max wide) (rv lo) (rv hi)) then 0 else rv hi)%R.
Proof.
  intros wide lo hi f g Hl Hh Hd E E'.
  assert (C : code (code_bytes wide) (repeat x00 (Z.to_nat (code_bytes wide))) 0) by (destruct wide; split; reflexivity).
  assert (C' : code (code_bytes wide) (repeat xff (Z.to_nat (code_bytes wide))) (code_max wide)) by (destruct wide; split; reflexivity).
  destruct (packed_ok wide lo hi [] _ [] _ 1000 ltac:(lia) Hl Hh C) as (h & G & _ & R).
  destruct (packed_ok wide lo hi [] _ [] _ 1000 ltac:(lia) Hl Hh C') as (h' & G' & _ & R').
  cbn [List.app] in G, G'. rewrite app_nil_r in G, G'. change (zlen []) with 0 in G, G'.
  rewrite E in G. rewrite E' in G'. injection G as <-. injection G' as <-. rewrite R, R'.
  apply interp_ends; [apply fin_exact; eapply moderate_fin; eauto..|exact Hd].
Qed.
Print Assumptions C67_ends.
Theorem C67_within : forall wide lo hi b u f, moderate 1000 lo -> moderate 1000 hi -> (rv lo <= rv hi)%R ->
  rn64 (rv hi - rv lo) = (rv hi - rv lo)%R -> code (code_bytes wide) b u ->
  unpack_code wide b 0 lo hi = Ok f -> rv f = 0%R \/ (rv lo <= rv f <= rv hi)%R.
Proof.
  intros wide lo hi b u f Hl Hh H Hd C E.
  destruct (packed_ok wide lo hi [] b [] u 1000 ltac:(lia) Hl Hh C) as (g & G & _ & R).
  cbn [List.app] in G. rewrite app_nil_r in G. change (zlen []) with 0 in G. rewrite E in G. injection G as <-. rewrite R.
  apply interp_within; auto; try (apply fin_exact; eapply moderate_fin; eauto).
  destruct C as [L C]. rewrite <- C, CodecProofs.value_lsb_le. pose proof (le_val_range b) as G. rewrite L in G.
  destruct wide; cbn in *; lia.
Qed.
Print Assumptions C67_within.
(** packed in [-1, 1]: 0 is lost to the even number of codes, and comes back as
    exactly zero *)
Example C67_ex :
  unpack_code false [x00] 0 (opposite fone) fone = Ok (opposite fone) /\
  unpack_code false [xff] 0 (opposite fone) fone = Ok fone /\
  unpack_code false [x7f] 0 (opposite fone) fone = Ok fzero /\
  unpack_code false [x80] 0 (opposite fone) fone = Ok fzero /\
  unpack_code true [xff; xff] 0 fzero two_f = Ok two_f /\
  unpack_code true [xff] 0 fzero two_f = Err StructError /\
  code 2 [x01; x02] 513.
Proof. repeat split; vm_compute; reflexivity. Qed.
Example C67_ex_hyp : moderate 1000 (opposite fone) /\ moderate 1000 fone /\ (rv (opposite fone) <= rv fone)%R /\
  rn64 (rv fone - rv (opposite fone)) = (rv fone - rv (opposite fone))%R.
Proof.
  destruct fone_fin as [F R].
  assert (Ro : rv (opposite fone) = (-1)%R).
  { replace (-1)%R with (- rv fone)%R by (rewrite R; lra). unfold rv, opposite, fone, SF2R, F2R. cbn [Fnum Fexp cond_Zopp negb].
    change (Z.neg 4503599627370496) with (- (4503599627370496)). rewrite opp_IZR. cbn [cond_Zopp]. lra. }
  assert (B1 : (1 <= bpow radix2 1000)%R) by (apply (bpow_le radix2 0 1000); lia).
  split; [split; [reflexivity|split; [exact I|rewrite Ro; rewrite Rabs_left by lra; lra]]|].
  split; [split; [reflexivity|split; [exact I|rewrite R; rewrite Rabs_pos_eq by lra; exact B1]]|].
  rewrite Ro, R. split; [lra|]. replace (1 - -1)%R with (IZR 2) by lra. apply int_format. lia.
Qed.
