(** Theorems about the texts of floats, in Vector3.parse, Vector3(X=text) and
    str(vector): C95, C96.  Vocabulary: SpecFloatText.v, SpecObjects.v.
    [float_of_text] and [text_of_float] model the built-ins float() and str(). *)
From Coq Require Import Reals Lra.
From Flocq Require Import Core BinarySingleNaN.
From Verif Require Import FloatText Objects Lib SpecCodec SpecFloats SpecObjects SpecFloatText
  ObjectTextProofs FloatReadProofs FloatShowProofs FloatTripProofs.
Open Scope Z_scope.
Open Scope list_scope.

(** ** C95: reading *)

(** Coordinates given as texts: each is the double nearest to the number the
    text denotes; any other text raises ValueError. *)
Theorem C95_coordinates : forall a b c x y z,
  vec3_new float_of_text None 0 (VStr a) (VStr b) (VStr c) = Ok (x, y, z) <->
  reads_as a x /\ reads_as b y /\ reads_as c z.
Proof.
  intros a b c x y z. cbn [vec3_new py_float]. rewrite <- !float_reads.
  destruct (float_of_text a) as [x'|e]; cbn [bind]; [|split; [discriminate|intros (H & _); discriminate H]].
  destruct (float_of_text b) as [y'|e]; cbn [bind]; [|split; [discriminate|intros (_ & H & _); discriminate H]].
  destruct (float_of_text c) as [z'|e]; cbn [bind]; [|split; [discriminate|intros (_ & _ & H); discriminate H]].
  split; [intros [= -> -> ->]; auto|intros ([= ->] & [= ->] & [= ->]); reflexivity].
Qed.
Print Assumptions C95_coordinates.
Theorem C95_coordinates_error : forall a b c e,
  vec3_new float_of_text None 0 (VStr a) (VStr b) (VStr c) = Err e -> e = ValueErr.
Proof.
  intros a b c e. cbn [vec3_new py_float].
  destruct (float_of_text a) as [x|ea] eqn:Ea; cbn [bind]; [|intros [= <-]; exact (float_error _ _ Ea)].
  destruct (float_of_text b) as [y|eb] eqn:Eb; cbn [bind]; [|intros [= <-]; exact (float_error _ _ Eb)].
  destruct (float_of_text c) as [z|ec] eqn:Ec; cbn [bind]; [discriminate|intros [= <-]; exact (float_error _ _ Ec)].
Qed.
Print Assumptions C95_coordinates_error.
Theorem C95_quaternion : forall a b c d x y z w,
  quat_new float_of_text None 0 (VStr a) (VStr b) (VStr c) (VStr d) = Ok (x, y, z, w) <->
  reads_as a x /\ reads_as b y /\ reads_as c z /\ reads_as d w.
Proof.
  intros a b c d x y z w. cbn [quat_new py_float]. rewrite <- !float_reads.
  destruct (float_of_text a) as [x'|e]; cbn [bind]; [|split; [discriminate|intros (H & _); discriminate H]].
  destruct (float_of_text b) as [y'|e]; cbn [bind]; [|split; [discriminate|intros (_ & H & _); discriminate H]].
  destruct (float_of_text c) as [z'|e]; cbn [bind]; [|split; [discriminate|intros (_ & _ & H & _); discriminate H]].
  destruct (float_of_text d) as [w'|e]; cbn [bind]; [|split; [discriminate|intros (_ & _ & _ & H); discriminate H]].
  split; [intros [= -> -> -> ->]; auto|intros ([= ->] & [= ->] & [= ->] & [= ->]); reflexivity].
Qed.
Print Assumptions C95_quaternion.

Lemma reads_trimmed a a' x : trimmed a a' -> reads_as a x <-> reads_as a' x.
Proof.
  intros T. assert (T' : trimmed a' a').
  { destruct T as (l & r & _ & _ & _ & H1 & H2). exists [], []. rewrite app_nil_r. auto. }
  split; intros (t & H & R).
  - exists a'. split; [exact T'|]. now rewrite <- (trimmed_unique a t a' H T).
  - exists a'. split; [exact T|]. now rewrite <- (trimmed_unique a' t a' H T').
Qed.
(** Vector3.parse: exactly the texts with three fields, all of them numerals. *)
Theorem C95_parse : forall s x y z, vec3_parse float_of_text s = Ok (x, y, z) <->
  exists a b c, has_fields s [a; b; c] /\ reads_as a x /\ reads_as b y /\ reads_as c z.
Proof.
  intros s x y z. destruct (fields_exist s) as [fs Hf]. destruct (Nat.eq_dec (List.length fs) 3) as [E|E].
  - destruct fs as [|a [|b [|c [|]]]]; try discriminate E.
    destruct (trimmed_exists a) as [a' Ha]. destruct (trimmed_exists b) as [b' Hb]. destruct (trimmed_exists c) as [c' Hc].
    rewrite (parse_three float_of_text s a b c a' b' c') by assumption. split.
    + intros H. exists a, b, c. split; [exact Hf|].
      destruct (float_of_text a') as [x'|e] eqn:Ea; cbn [bind] in H; [|discriminate H].
      destruct (float_of_text b') as [y'|e] eqn:Eb; cbn [bind] in H; [|discriminate H].
      destruct (float_of_text c') as [z'|e] eqn:Ec; cbn [bind] in H; [|discriminate H].
      injection H as -> -> ->. apply float_reads in Ea, Eb, Ec.
      rewrite (reads_trimmed a a'), (reads_trimmed b b'), (reads_trimmed c c') by assumption. auto.
    + intros (a0 & b0 & c0 & Hf' & Ra & Rb & Rc).
      pose proof (fields_unique s [a0; b0; c0] [a; b; c] Hf' Hf) as [= -> -> ->].
      apply (reads_trimmed a a' x Ha), float_reads in Ra. apply (reads_trimmed b b' y Hb), float_reads in Rb.
      apply (reads_trimmed c c' z Hc), float_reads in Rc. now rewrite Ra, Rb, Rc.
  - rewrite (parse_other float_of_text s fs) by assumption. split; [discriminate|].
    intros (a & b & c & Hf' & _). pose proof (fields_unique s [a; b; c] fs Hf' Hf) as <-. now contradiction E.
Qed.
Print Assumptions C95_parse.
Theorem C95_parse_error : forall s e, vec3_parse float_of_text s = Err e -> e = ValueErr.
Proof.
  intros s e. destruct (fields_exist s) as [fs Hf]. destruct (Nat.eq_dec (List.length fs) 3) as [E|E].
  - destruct fs as [|a [|b [|c [|]]]]; try discriminate E.
    destruct (trimmed_exists a) as [a' Ha]. destruct (trimmed_exists b) as [b' Hb]. destruct (trimmed_exists c) as [c' Hc].
    rewrite (parse_three float_of_text s a b c a' b' c') by assumption.
    destruct (float_of_text a') as [x|ea] eqn:Ea; cbn [bind]; [|intros [= <-]; exact (float_error _ _ Ea)].
    destruct (float_of_text b') as [y|eb] eqn:Eb; cbn [bind]; [|intros [= <-]; exact (float_error _ _ Eb)].
    destruct (float_of_text c') as [z|ec] eqn:Ec; cbn [bind]; [discriminate|intros [= <-]; exact (float_error _ _ Ec)].
  - rewrite (parse_other float_of_text s fs) by assumption. congruence.
Qed.
Print Assumptions C95_parse_error.
(** A text has one reading at most. *)
Theorem C95_one_reading : forall s f g, reads_as s f -> reads_as s g -> f = g.
Proof. intros s f g F G. apply float_reads in F, G. congruence. Qed.
Print Assumptions C95_one_reading.
(** Two numerals for the same number are read alike, however they are spelt. *)
Theorem C95_spelling : forall t t' neg x f, Forall (fun c => ~ white c) t -> Forall (fun c => ~ white c) t' ->
  decimal_text t neg x -> decimal_text t' neg x -> reads_as t f -> reads_as t' f.
Proof.
  intros t t' neg x f W W' D D' R. exists t'. split; [now apply plain_trimmed|]. left. exists neg, x. split; [exact D'|].
  assert (N : exists g, is_nearest neg x g).
  { destruct D as (sg & mt & ex & ip & fp & e & _ & _ & _ & F1 & F2 & _ & _ & ->). eexists. apply nearest_decimal_ok.
    apply ciphers_nonneg, Forall_app. auto. }
  destruct N as [g N]. assert (G : reads_as t g) by (exists t; split; [now apply plain_trimmed|]; left; exists neg, x; auto).
  now rewrite (C95_one_reading t f g R G).
Qed.
Print Assumptions C95_spelling.

Definition t_ (s : string) : bytes := bytes_of_string s.
Example C95_ex :
  vec3_parse float_of_text (t_ "<1, -2.5e1 , .5>") =
    Ok (fone, S754_finite true 7036874417766400 (-48), S754_finite false 4503599627370496 (-53)) /\
  vec3_parse float_of_text (t_ "1.,Inf,NAN") = Ok (fone, S754_infinity false, S754_nan) /\
  vec3_parse float_of_text (t_ "1e400,-1e400,-0") = Ok (S754_infinity false, S754_infinity true, S754_zero true) /\
  vec3_parse float_of_text (t_ "1,2,0x3") = Err ValueErr /\
  vec3_parse float_of_text (t_ "1,2,") = Err ValueErr /\
  vec3_parse float_of_text (t_ "1,2,3e") = Err ValueErr /\
  vec3_parse float_of_text (t_ "1,2 3,4") = Err ValueErr.
Proof. vm_compute. repeat split. Qed.
Example C95_ex_reads : decimal_text (t_ "-12.5e-1") true (5 / 4) /\ reads_as (t_ " 1.0") fone.
Proof.
  split; [|apply float_reads; vm_compute; reflexivity].
  exists [x2d], (t_ "12.5"), (t_ "e-1"), (t_ "12"), (t_ "5"), (-1).
  repeat split; try (repeat constructor; vm_compute; discriminate); try discriminate.
  - exact (pointed (t_ "12") (t_ "5")).
  - apply (an_exponent x65 [x2d] true [x31]); [cbn; auto|constructor| |discriminate].
    repeat constructor; vm_compute; discriminate.
  - change (ciphers_value (t_ "12" ++ t_ "5")) with 125. change (-1 - zlen (t_ "5")) with (- (2)).
    rewrite ten_neg by easy. change (10 ^ 2) with 100. lra.
Qed.

(** ** C96: printing, and reading what was printed *)

(** str() of a coordinate: a minus sign if it is negative, and the text of its
    absolute value rounded to twelve significant digits. *)
Theorem C96_text : forall pv f, valid64 f = true ->
  match f with
  | S754_zero s => text_of_float pv f = (if s then [x2d] else []) ++ bytes_of_string "0.0"
  | S754_infinity s => text_of_float pv f = (if s then [x2d] else []) ++ bytes_of_string "inf"
  | S754_nan => text_of_float pv f = bytes_of_string "nan"
  | S754_finite s _ _ => exists u, text_of_float pv f = (if s then [x2d] else []) ++ u /\
                                   printed_as pv (rn12 (Rabs (rv f))) u
  end.
Proof.
  intros pv f V. destruct f as [s|s| |s m e]; try reflexivity.
  destruct (show_finite pv s m e V) as (u & E & P). exists u. split; [exact E|].
  rewrite signed_rv, abs_signed; [exact P|]. apply Rlt_le, F2R_gt_0. reflexivity.
Qed.
Print Assumptions C96_text.
(** ... which is one text. *)
Theorem C96_one_text : forall pv x t t', printed_as pv x t -> printed_as pv x t' -> t = t'.
Proof. exact printed_unique. Qed.
Print Assumptions C96_one_text.
(** ... and a numeral for that number. *)
Theorem C96_numeral : forall pv x t, printed_as pv x t -> decimal_text t false x.
Proof. intros pv x t. exact (printed_decimal pv false x t). Qed.
Print Assumptions C96_numeral.

Lemma repr_back pv v : valid3 v -> exists w, vec3_parse float_of_text (vec3_repr (text_of_float pv) v) = Ok w /\
  pairwise3 through_text v w.
Proof.
  destruct v as [[x y] z]. intros (Vx & Vy & Vz).
  rewrite parse_repr by (apply text_plain; assumption).
  destruct (read_back pv x Vx) as (x' & -> & Hx). destruct (read_back pv y Vy) as (y' & -> & Hy).
  destruct (read_back pv z Vz) as (z' & -> & Hz). exists (x', y', z'). split; [reflexivity|]. cbn. auto.
Qed.
(** Vector3.parse(str(v)) always succeeds, whatever the coordinates. *)
Theorem C96_parse_back : forall pv v, valid3 v -> exists w,
  vec3_parse float_of_text (vec3_repr (text_of_float pv) v) = Ok w /\ pairwise3 through_text v w.
Proof. exact repr_back. Qed.
Print Assumptions C96_parse_back.
Lemma through_unique f g g' : through_text f g -> through_text f g' -> g = g'.
Proof.
  intros (V & A & B) (V' & A' & B').
  assert (D : finite_float f \/ ~ finite_float f) by (destruct f; cbn; tauto). destruct D as [D|D].
  - destruct (A D) as (F & S & R). destruct (A' D) as (F' & S' & R'). apply value_inj; auto; congruence.
  - rewrite (B D), (B' D). reflexivity.
Qed.
(** A vector whose coordinates are doubles nearest to decimal numbers of at most
    twelve digits is read back unchanged. *)
Theorem C96_exact : forall pv v, valid3 v -> each3 (fun f => short_decimal f \/ ~ finite_float f) v ->
  vec3_parse float_of_text (vec3_repr (text_of_float pv) v) = Ok v.
Proof.
  intros pv v V S. destruct (repr_back pv v V) as (w & -> & T). destruct v as [[x y] z]. destruct w as [[x' y'] z'].
  destruct V as (Vx & Vy & Vz). destruct S as (Sx & Sy & Sz). destruct T as (Tx & Ty & Tz).
  assert (G : forall f g, valid64 f = true -> through_text f g -> short_decimal f \/ ~ finite_float f -> g = f).
  { intros f g Vf Tf [Sf|Nf]; [exact (short_exact f g Vf Tf Sf)|]. destruct Tf as (_ & _ & B). now apply B. }
  now rewrite (G x x' Vx Tx Sx), (G y y' Vy Ty Sy), (G z z' Vz Tz Sz).
Qed.
Print Assumptions C96_exact.
(** Printing the vector read back gives the same text, unless a coordinate is
    the one double that is printed as 1e-312 (or its opposite). *)
Theorem C96_same_text : forall pv v w, valid3 v ->
  vec3_parse float_of_text (vec3_repr (text_of_float pv) v) = Ok w ->
  each3 (fun f => ~ the_odd_double f) v ->
  vec3_repr (text_of_float pv) w = vec3_repr (text_of_float pv) v.
Proof.
  intros pv v w V E N. destruct (repr_back pv v V) as (w' & E' & T). rewrite E in E'. injection E' as <-. clear E.
  destruct v as [[x y] z]. destruct w as [[x' y'] z']. destruct V as (Vx & Vy & Vz).
  destruct N as (Nx & Ny & Nz). destruct T as (Tx & Ty & Tz). unfold vec3_repr.
  now rewrite (trip_text pv x x'), (trip_text pv y y'), (trip_text pv z z').
Qed.
Print Assumptions C96_same_text.
Theorem C96_odd_double : forall pv f g, valid64 f = true ->
  float_of_text (text_of_float pv f) = Ok g ->
  (text_of_float pv g = text_of_float pv f <-> ~ the_odd_double f).
Proof.
  intros pv f g V E. destruct (read_back pv f V) as (g' & E' & T). rewrite E in E'. injection E' as <-. split.
  - intros H O. exact (odd_text pv f g V T O H).
  - intros N. now apply trip_text.
Qed.
Print Assumptions C96_odd_double.

Definition odd_double : pyfloat := S754_finite false 202402253308 (-1074).
Definition tenth : pyfloat := S754_finite false 7205759403792794 (-56).
Example C96_ex :
  vec3_repr (text_of_float Py27) (tenth, S754_zero true, S754_infinity true) = t_ "<0.1, -0.0, -inf>" /\
  text_of_float Py27 (S754_finite false 6755399441055744 (-1)) = t_ "3.37769972053e+15" /\
  text_of_float Py26 (S754_finite false 5368709120000000 (-15)) = t_ "163840000000.0" /\
  text_of_float Py27 (S754_finite false 5368709120000000 (-15)) = t_ "1.6384e+11" /\
  text_of_float Py27 odd_double = t_ "1e-312" /\
  float_of_text (t_ "1e-312") = Ok (S754_finite false 202402253307 (-1074)) /\
  text_of_float Py27 (S754_finite false 202402253307 (-1074)) = t_ "9.99999999998e-313".
Proof. vm_compute. repeat split. Qed.
Example C96_ex_hyps : valid3 (tenth, S754_zero true, S754_infinity true) /\
  each3 (fun f => short_decimal f \/ ~ finite_float f) (tenth, S754_zero true, S754_infinity true) /\
  vec3_parse float_of_text (t_ "<0.1, -0.0, -inf>") = Ok (tenth, S754_zero true, S754_infinity true) /\
  the_odd_double odd_double /\ valid64 odd_double = true.
Proof.
  split; [repeat split|]. split; [|split; [vm_compute; reflexivity|]; split; [|reflexivity]].
  - split; [|split; [left; split; [exact I|left; reflexivity]|right; intros []]].
    left. split; [exact I|]. right. exists 1, (-1). split; [reflexivity|].
    assert (R : reads_as (t_ "1e-1") tenth) by (apply float_reads; vm_compute; reflexivity).
    assert (E : tenth = nearest_decimal false 1 (-1)) by (vm_compute; reflexivity).
    pose proof (nearest_decimal_ok false 1 (-1) ltac:(easy)) as (_ & A & B). rewrite <- E in A, B.
    split.
    + rewrite Rabs_pos_eq by (apply Rmult_le_pos; [lra|apply Rlt_le, ten_pos]).
      change (-1) with (- (1)). rewrite ten_neg by easy. apply Rle_trans with (bpow radix2 (-4)); [apply bpow_le; easy|].
      cbn. lra.
    + destruct (Rlt_or_le (rn64 (1 * ten (-1))) (bpow radix2 1024)) as [H|H]; [|discriminate (B H)].
      now destruct (A H) as (_ & A2 & _).
  - split; [exact I|]. unfold odd_double, rv, SF2R, F2R. cbn [Fnum Fexp cond_Zopp]. apply Rabs_pos_eq.
    apply Rmult_le_pos; [lra|]. apply bpow_ge_0.
Qed.
