(** Proofs about UUIDs and helpers. *)
From Verif Require Import Lib SpecText CodecProofs.

Lemma digit_cases d : 0 <= d < 16 -> d = 0 \/ d = 1 \/ d = 2 \/ d = 3 \/ d = 4 \/ d = 5 \/ d = 6 \/ d = 7
  \/ d = 8 \/ d = 9 \/ d = 10 \/ d = 11 \/ d = 12 \/ d = 13 \/ d = 14 \/ d = 15.
Proof. lia. Qed.
Ltac each_digit H := apply digit_cases in H; repeat (destruct H as [->|H]; [|]); [..|subst].

Lemma hexval_char c d : hexval c = Some d <-> hex_char c d.
Proof.
  split.
  - intros H.
    assert (0 <= d < 16) as R.
    { unfold hexval in H. pose proof (ord_range c).
      repeat match type of H with (if ?x then _ else _) = _ => destruct x eqn:? end;
        try discriminate; injection H as <-; lia. }
    split; [exact R|].
    destruct c; vm_compute in H; try discriminate; injection H as <-; vm_compute; auto.
  - intros [R H]. each_digit R; destruct H as [H|H]; vm_compute in H; injection H as <-; reflexivity.
Qed.

Lemma lower_hexdigit d : 0 <= d < 16 -> lower_char (hexdigit_lower d) d.
Proof. intros R. split; [exact R|]. each_digit R; reflexivity. Qed.
Lemma upper_hexdigit d : 0 <= d < 16 -> upper_char (hexdigit_upper d) d.
Proof. intros R. split; [exact R|]. each_digit R; reflexivity. Qed.
Lemma lower_is_hex c d : lower_char c d -> hex_char c d.
Proof. intros [R H]. split; auto. Qed.
Lemma upper_is_hex c d : upper_char c d -> hex_char c d.
Proof. intros [R H]. split; auto. Qed.

Lemma hex_char_plain c d : hex_char c d ->
  c <> x2d /\ c <> x7b /\ c <> x7d /\ c <> x20 /\ c <> "u"%byte /\ is_ws c = false.
Proof.
  intros [R H]. each_digit R; destruct H as [H|H]; vm_compute in H; injection H as <-;
    repeat split; try discriminate.
Qed.

(** remove_all *)
Lemma remove_all_none a p s : ~ In a s -> remove_all (a :: p) 0 s = s.
Proof.
  induction s as [|b s IH]; intros N; [reflexivity|]. cbn.
  assert (Byte.eqb a b = false) as -> by (apply byte_eqb_false; intros ->; apply N; now left).
  cbn. f_equal. apply IH. intros H. apply N. now right.
Qed.
Lemma remove_dash s : remove_all [dash] 0 s = filter (fun b => negb (Byte.eqb dash b)) s.
Proof.
  induction s as [|b s IH]; [reflexivity|].
  cbn [remove_all prefix_of filter]. rewrite andb_true_r.
  destruct (Byte.eqb dash b); cbn [negb List.length Nat.pred]; now rewrite IH.
Qed.

Lemma lstrip_by_id f s : (forall b t, s = b :: t -> f b = false) -> lstrip_by f s = s.
Proof. destruct s as [|b t]; intros H; [reflexivity|]. cbn. now rewrite (H b t). Qed.
Lemma strip_by_none f s : (forall b, In b s -> f b = false) -> strip_by f s = s.
Proof.
  intros H. unfold strip_by. rewrite (lstrip_by_id f s).
  2:{ intros b t ->. apply H. now left. }
  rewrite lstrip_by_id.
  2:{ intros b t E. apply H. apply in_rev. rewrite E. now left. }
  apply rev_involutive.
Qed.

Lemma spells_in s ds b : spells s ds -> In b s ->
  b <> "u"%byte /\ is_brace b = false.
Proof.
  intros S. induction S as [|s ds S IH|c d s ds C S IH]; intros I.
  - destruct I.
  - destruct I as [<-|I]; [|auto]. split; [discriminate|reflexivity].
  - destruct I as [<-|I]; [|auto]. apply hex_char_plain in C as (_ & A & B & _ & U & _).
    split; [exact U|]. unfold is_brace. apply orb_false_intro; now apply byte_eqb_false.
Qed.

Lemma spells_filter s ds : spells s ds ->
  let h := filter (fun b => negb (Byte.eqb dash b)) s in
  Forall2 hex_char h ds.
Proof.
  intros S. induction S as [|s ds S IH|c d s ds C S IH]; cbn zeta in *; cbn [filter];
    [constructor|exact IH|].
  assert (Byte.eqb dash c = false) as ->.
  { apply byte_eqb_false. intros <-. apply hex_char_plain in C as [C _]. now apply C. }
  cbn [negb]. constructor; [exact C|exact IH].
Qed.

Lemma read_hex_app h ds rest : Forall2 hex_char h ds -> forall acc,
  read_hex acc (h ++ rest) = read_hex (fold_left (fun a d => 16 * a + d) ds acc) rest.
Proof.
  induction 1 as [|c d h ds C F IH]; intros acc; [reflexivity|].
  cbn [read_hex fold_left app]. apply hexval_char in C. rewrite C. apply IH.
Qed.
Lemma read_hex_stops acc s : (forall c r, s = c :: r -> hexval c = None) -> read_hex acc s = (acc, s).
Proof. destruct s as [|c r]; intros H; [reflexivity|]. cbn. now rewrite (H c r). Qed.
Lemma read_hex_inv s : forall acc z rest, read_hex acc s = (z, rest) -> exists h ds,
  s = h ++ rest /\ Forall2 hex_char h ds /\ z = fold_left (fun a d => 16 * a + d) ds acc /\
  (forall c r, rest = c :: r -> hexval c = None).
Proof.
  induction s as [|c s IH]; intros acc z rest; cbn [read_hex].
  - intros [= <- <-]. exists [], []. repeat split; [constructor|discriminate].
  - destruct (hexval c) as [d|] eqn:C.
    + intros H. apply IH in H as (h & ds & -> & F & Z & N). exists (c :: h), (d :: ds).
      apply hexval_char in C. repeat split; auto.
    + intros [= <- <-]. exists [], []. repeat split; [constructor|]. intros c' r [= <- <-]. exact C.
Qed.
Lemma white_ws c : white c <-> is_ws c = true.
Proof.
  unfold white. split.
  - intros H. repeat (destruct H as [<-|H]; [reflexivity|]). destruct H.
  - destruct c; vm_compute; try discriminate; tauto.
Qed.
Lemma lstrip_app f a s : Forall (fun c => f c = true) a -> (forall c r, s = c :: r -> f c = false) ->
  lstrip_by f (a ++ s) = s.
Proof.
  induction 1 as [|c a C F IH]; intros N; cbn [app lstrip_by].
  - now apply lstrip_by_id.
  - rewrite C. now apply IH.
Qed.
Lemma lstrip_inv f s : exists a, s = a ++ lstrip_by f s /\ Forall (fun c => f c = true) a /\
  (forall c r, lstrip_by f s = c :: r -> f c = false).
Proof.
  induction s as [|c s (a & E & F & N)]; cbn [lstrip_by].
  - exists []. repeat split; [constructor|discriminate].
  - destruct (f c) eqn:C.
    + exists (c :: a). repeat split; [cbn; congruence|now constructor|exact N].
    + exists []. repeat split; [constructor|]. intros c' r [= <- <-]. exact C.
Qed.
Lemma Forall_white a : Forall white a <-> Forall (fun c => is_ws c = true) a.
Proof. rewrite !Forall_forall. split; intros H c I; apply white_ws; auto. Qed.

(** The beginnings of the parts of a literal *)
Lemma hex_not_white c d : hex_char c d -> is_ws c = false.
Proof. intros H. now apply hex_char_plain in H. Qed.
Lemma hex_head (digits : bytes) ds rest c r : digits <> [] -> Forall2 hex_char digits ds ->
  digits ++ rest = c :: r -> exists d, hex_char c d.
Proof. intros N F E. destruct F as [|c' d h ds' C F]; [contradiction|]. injection E as <- _. eauto. Qed.

Lemma skip_plus_inv s : exists plus, s = plus ++ skip_plus s /\ (plus = [] \/ plus = ["+"%byte]).
Proof.
  destruct s as [|c s]; [exists []; auto|]. unfold skip_plus. destruct (Byte.eqb c x2b) eqn:E; [|exists []; auto].
  apply byte_eqb_true in E. subst c. exists ["+"%byte]. auto.
Qed.
Lemma skip_0x_inv s : exists pre, s = pre ++ skip_0x s /\ (pre = [] \/ pre = ["0"; "x"]%byte \/ pre = ["0"; "X"]%byte).
Proof.
  destruct s as [|c [|d s]]; [exists []; auto..|]. unfold skip_0x.
  destruct (Byte.eqb c x30) eqn:E; [|exists []; auto]. apply byte_eqb_true in E. subst c.
  destruct (Byte.eqb d x78) eqn:E1; [apply byte_eqb_true in E1; subst d; exists ["0"; "x"]%byte; auto|].
  destruct (Byte.eqb d x58) eqn:E2; [apply byte_eqb_true in E2; subst d; exists ["0"; "X"]%byte; auto|exists []; auto].
Qed.
Lemma skip_L_inv s : exists suf, s = suf ++ skip_L s /\ (suf = [] \/ suf = ["L"%byte] \/ suf = ["l"%byte]).
Proof.
  destruct s as [|c s]; [exists []; auto|]. unfold skip_L.
  destruct (Byte.eqb c x4c) eqn:E1; [apply byte_eqb_true in E1; subst c; exists ["L"%byte]; auto|].
  destruct (Byte.eqb c x6c) eqn:E2; [apply byte_eqb_true in E2; subst c; exists ["l"%byte]; auto|exists []; auto].
Qed.
Lemma hex_not_x c d : hex_char c d -> c <> x78 /\ c <> x58 /\ c <> x2b /\ c <> x4c /\ c <> x6c.
Proof. intros D. apply hexval_char in D. repeat split; intros ->; discriminate D. Qed.
Lemma ws_not c : is_ws c = true -> hexval c = None /\ c <> x78 /\ c <> x58 /\ c <> x4c /\ c <> x6c.
Proof. intros D. split; [destruct c; try discriminate D; reflexivity|]. repeat split; intros ->; discriminate D. Qed.
Lemma byte_neqb c d : c <> d -> Byte.eqb c d = false.
Proof. intros N. destruct (Byte.eqb c d) eqn:E; [|reflexivity]. apply byte_eqb_true in E. contradiction. Qed.

Lemma long16_literal s u : long16 s = Some u <-> hex_literal s u.
Proof.
  split.
  - unfold long16. intros H.
    destruct (lstrip_inv is_ws s) as (w1 & E1 & W1 & _). set (s1 := lstrip_by is_ws s) in *. clearbody s1.
    destruct (skip_plus_inv s1) as (plus & E2 & P). set (s2 := skip_plus s1) in *. clearbody s2.
    destruct (lstrip_inv is_ws s2) as (w2 & E3 & W2 & _). set (s3 := lstrip_by is_ws s2) in *. clearbody s3.
    destruct (skip_0x_inv s3) as (pre & E4 & R). set (s4 := skip_0x s3) in *. clearbody s4.
    destruct (read_hex 0 s4) as [z rest] eqn:RH. apply read_hex_inv in RH as (h & ds & E5 & F & Z & _).
    destruct (Nat.eqb_spec (List.length rest) (List.length s4)) as [|NL]; [discriminate|].
    destruct (skip_L_inv rest) as (suf & E6 & Q). set (s6 := skip_L rest) in *. clearbody s6.
    destruct (lstrip_inv is_ws s6) as (w3 & E7 & W3 & _).
    destruct (lstrip_by is_ws s6) as [|c r]; [|discriminate]. injection H as <-. rewrite app_nil_r in E7.
    exists w1, plus, w2, pre, h, ds, suf, w3.
    split; [rewrite E1, E2, E3, E4, E5, E6, E7; reflexivity|].
    repeat (split; [now apply Forall_white|]). split; [exact P|]. split; [exact R|].
    split; [intros ->; apply NL; now rewrite E5|]. split; [exact F|]. split; [exact Q|]. exact Z.
  - intros (w1 & plus & w2 & pre & digits & ds & suf & w3 & -> & W1 & W2 & W3 & P & R & N & F & Q & ->).
    apply Forall_white in W1, W2, W3.
    assert (forall c r, pre ++ digits ++ suf ++ w3 = c :: r -> is_ws c = false /\ c <> x2b) as H1.
    { intros c r E. destruct R as [->|[->| ->]]; [|injection E as <- _; split; [reflexivity|discriminate]..].
      destruct (hex_head _ _ _ _ _ N F E) as (d & D). split; [now apply hex_not_white in D|]. now apply (hex_not_x c d). }
    unfold long16.
    assert (lstrip_by is_ws (skip_plus (lstrip_by is_ws (w1 ++ plus ++ w2 ++ pre ++ digits ++ suf ++ w3))) = pre ++ digits ++ suf ++ w3) as ->.
    { destruct P as [->| ->].
      - cbn [app]. rewrite app_assoc, lstrip_app; [|now apply Forall_app|intros c r X; now apply (H1 c r)].
        assert (skip_plus (pre ++ digits ++ suf ++ w3) = pre ++ digits ++ suf ++ w3) as ->.
        { unfold skip_plus. destruct (pre ++ digits ++ suf ++ w3) as [|c r]; [reflexivity|]. destruct (H1 c r eq_refl) as [_ X].
          now rewrite (byte_neqb c x2b X). }
        rewrite lstrip_by_id; [reflexivity|]. intros c r X. now apply (H1 c r).
      - rewrite lstrip_app; [|exact W1|intros c r [= <- _]; reflexivity]. cbn [app skip_plus]. change (Byte.eqb "+" x2b) with true. cbv iota.
        apply lstrip_app; [exact W2|]. intros c r X. now apply (H1 c r). }
    assert (skip_0x (pre ++ digits ++ suf ++ w3) = digits ++ suf ++ w3) as H2.
    { destruct R as [->|[->| ->]]; [|reflexivity..]. cbn [app].
      destruct F as [|c1 d1 h1 ds1 C1 F1]; [contradiction|]. cbn [app]. unfold skip_0x.
      destruct (h1 ++ suf ++ w3) as [|c2 r2] eqn:T; [reflexivity|].
      assert (c2 <> x78 /\ c2 <> x58) as [X1 X2].
      { destruct F1 as [|c3 d3 h3 ds3 C3 F3].
        - cbn [app] in T. destruct Q as [->|[->| ->]]; cbn [app] in T; [|injection T as <- _; split; discriminate..].
          subst w3. apply Forall_inv in W3. destruct (ws_not _ W3) as (_ & A & B & _). auto.
        - cbn [app] in T. injection T as <- _. destruct (hex_not_x _ _ C3) as (A & B & _). auto. }
      rewrite (byte_neqb _ _ X1), (byte_neqb _ _ X2), andb_false_r. reflexivity. }
    rewrite H2, (read_hex_app digits ds _ F 0).
    assert (forall c r, suf ++ w3 = c :: r -> hexval c = None) as H3.
    { intros c r X. destruct Q as [->|[->| ->]]; cbn [app] in X; [|injection X as <- _; reflexivity..].
      subst w3. apply Forall_inv in W3. now apply ws_not. }
    rewrite read_hex_stops by exact H3.
    destruct (Nat.eqb_spec (List.length (suf ++ w3)) (List.length (digits ++ suf ++ w3))) as [X|_].
    { exfalso. rewrite (app_length digits) in X. destruct digits; [contradiction|cbn in X; lia]. }
    assert (skip_L (suf ++ w3) = w3) as ->.
    { destruct Q as [->|[->| ->]]; [|reflexivity..]. cbn [app]. destruct w3 as [|c3 w3]; [reflexivity|].
      apply Forall_inv in W3. destruct (ws_not _ W3) as (_ & _ & _ & A & B). unfold skip_L. rewrite (byte_neqb _ _ A), (byte_neqb _ _ B). reflexivity. }
    rewrite <- (app_nil_r w3), lstrip_app by (auto; discriminate). reflexivity.
Qed.

(** remove_all *)
Lemma prefix_of_spec p : forall s, prefix_of p s = true <-> exists r, s = p ++ r.
Proof.
  induction p as [|a p IH]; intros s; cbn.
  - split; eauto.
  - destruct s as [|b s]; [split; [discriminate|intros (r & [=])]|]. rewrite andb_true_iff, IH. split.
    + intros (E & r & ->). apply Byte.byte_dec_bl in E as ->. eauto.
    + intros (r & [= -> ->]). split; [now apply Byte.byte_dec_lb|eauto].
Qed.
Lemma remove_all_skip p k : forall s, remove_all p k s = remove_all p 0 (skipn k s).
Proof.
  induction k as [|k IH]; intros s; [reflexivity|]. destruct s as [|b s]; [reflexivity|]. cbn [skipn]. rewrite <- IH. reflexivity.
Qed.
Lemma remove_all_step a p s : remove_all (a :: p) 0 s =
  match s with
  | [] => []
  | b :: s' => if prefix_of (a :: p) s then remove_all (a :: p) 0 (skipn (List.length (a :: p)) s)
               else b :: remove_all (a :: p) 0 s'
  end.
Proof.
  destruct s as [|b s]; [reflexivity|]. cbn [remove_all]. destruct (prefix_of (a :: p) (b :: s)); [|reflexivity].
  rewrite remove_all_skip. reflexivity.
Qed.
Lemma removed_spec a p s t : removed (a :: p) s t <-> remove_all (a :: p) 0 s = t.
Proof.
  split.
  - induction 1 as [|s t R IH|c s t N R IH].
    + reflexivity.
    + rewrite remove_all_step. cbn [app].
      assert (prefix_of (a :: p) (a :: p ++ s) = true) as -> by (apply prefix_of_spec; exists s; reflexivity).
      cbn [List.length skipn]. rewrite skipn_app, skipn_all, Nat.sub_diag. exact IH.
    + rewrite remove_all_step. destruct (prefix_of (a :: p) (c :: s)) eqn:P; [|now rewrite IH].
      apply prefix_of_spec in P as (r & E). now destruct (N r).
  - intros <-. remember (List.length s) as n eqn:L. revert s L. induction n as [n IH] using (well_founded_induction Nat.lt_wf_0). intros s ->.
    rewrite remove_all_step. destruct s as [|b s]; [constructor|].
    destruct (prefix_of (a :: p) (b :: s)) eqn:P.
    + apply prefix_of_spec in P as (r & [= -> ->]). cbn [app List.length skipn]. rewrite skipn_app, skipn_all, Nat.sub_diag. cbn [app skipn].
      change (a :: p ++ r) with ((a :: p) ++ r). apply (removed_here (a :: p) r). apply (IH (List.length r)); [|reflexivity]. cbn [List.length]. rewrite app_length. lia.
    + constructor; [|apply (IH (List.length s)); [cbn; lia|reflexivity]].
      intros r E. assert (prefix_of (a :: p) (b :: s) = true) by (apply prefix_of_spec; eauto). congruence.
Qed.
Lemma brace_spec c : brace c <-> is_brace c = true.
Proof.
  unfold brace, is_brace. rewrite orb_true_iff. split.
  - intros [->| ->]; auto.
  - intros [H|H]; apply Byte.byte_dec_bl in H; auto.
Qed.
Lemma Forall_brace a : Forall brace a <-> Forall (fun c => is_brace c = true) a.
Proof. rewrite !Forall_forall. split; intros H c I; apply brace_spec; auto. Qed.
Lemma strip_inv f s : exists a b, s = a ++ strip_by f s ++ b /\ Forall (fun c => f c = true) a /\ Forall (fun c => f c = true) b /\
  (forall c r, strip_by f s = c :: r -> f c = false) /\ (forall c r, strip_by f s = r ++ [c] -> f c = false).
Proof.
  unfold strip_by. destruct (lstrip_inv f s) as (a & E & A & N).
  set (s1 := lstrip_by f s) in *. destruct (lstrip_inv f (rev s1)) as (b & E' & B & N').
  set (m := lstrip_by f (rev s1)) in *.
  assert (s1 = rev m ++ rev b) as X by (rewrite <- (rev_involutive s1), E', rev_app_distr; reflexivity).
  exists a, (rev b). split; [now rewrite E, <- X|]. split; [exact A|]. split; [now apply Forall_rev|]. split.
  - intros c r H. apply (N c (r ++ rev b)). now rewrite X, H.
  - intros c r H. apply (N' c (rev r)). rewrite <- (rev_involutive m), H, rev_app_distr. reflexivity.
Qed.
Lemma strip_app f a m b : Forall (fun c => f c = true) a -> Forall (fun c => f c = true) b ->
  (forall c r, m = c :: r -> f c = false) -> (forall c r, m = r ++ [c] -> f c = false) -> strip_by f (a ++ m ++ b) = m.
Proof.
  intros A B N N'. unfold strip_by. destruct m as [|c m].
  - cbn [app]. rewrite <- (app_nil_r (a ++ b)), lstrip_app; [reflexivity|now apply Forall_app|discriminate].
  - rewrite (lstrip_app f a) by (auto; intros c' r [= <- <-]; now apply (N c m)).
    rewrite rev_app_distr, lstrip_app; [apply rev_involutive|now apply Forall_rev|].
    intros c' r E. apply (N' c' (rev r)). rewrite <- (rev_involutive (c :: m)), E. reflexivity.
Qed.
Lemma stripped_spec s m : stripped s m <-> strip_by is_brace s = m.
Proof.
  split.
  - intros (a & b & -> & A & B & N & N'). apply strip_app; [now apply Forall_brace|now apply Forall_brace|..];
      intros c r E; [specialize (N c r E)|specialize (N' c r E)]; rewrite brace_spec in *; now destruct (is_brace c).
  - intros <-. destruct (strip_inv is_brace s) as (a & b & E & A & B & N & N'). exists a, b.
    split; [exact E|]. split; [now apply Forall_brace|]. split; [now apply Forall_brace|].
    split; intros c r X; rewrite brace_spec; [rewrite (N c r X)|rewrite (N' c r X)]; discriminate.
Qed.
Lemma without_hyphens_spec s : remove_all [dash] 0 s = without_hyphens s.
Proof.
  rewrite remove_dash. unfold without_hyphens. apply filter_ext. intros c. destruct c; reflexivity.
Qed.

Lemma uuid_parse_text s u : uuid_parse s = Ok u <-> uuid_text_of s u.
Proof.
  unfold uuid_parse, uuid_text_of. rewrite without_hyphens_spec.
  set (s1 := remove_all (bytes_of_string "urn:") 0 s). set (s2 := remove_all (bytes_of_string "uuid:") 0 s1).
  set (s3 := strip_by is_brace s2).
  transitivity (zlen (without_hyphens s3) = 32 /\ hex_literal (without_hyphens s3) u).
  - unfold zlen. rewrite <- long16_literal. destruct (Nat.eqb_spec (List.length (without_hyphens s3)) 32) as [->|N].
    + destruct (long16 _); split; try discriminate.
      * intros [= ->]. auto.
      * intros (_ & [= ->]). reflexivity.
      * intros (_ & [=]).
    + split; [discriminate|]. intros (E & _). lia.
  - split.
    + intros H. exists s1, s2, s3. split; [now apply removed_spec|]. split; [now apply removed_spec|]. split; [now apply stripped_spec|exact H].
    + intros (t1 & t2 & t3 & A & B & C & H). apply removed_spec in A, B. apply stripped_spec in C. subst. exact H.
Qed.
Lemma uuid_parse_error s e : uuid_parse s = Err e -> e = ValueErr.
Proof. unfold uuid_parse. destruct (Nat.eqb _ _); [destruct (long16 _)|]; congruence. Qed.
Lemma base16_snoc ds d : base16 (ds ++ [d]) = 16 * base16 ds + d.
Proof. unfold base16. rewrite fold_left_app. reflexivity. Qed.

Lemma uuid_text_range s u : uuid_parse s = Ok u -> is_uuid u.
Proof.
  intros H. apply uuid_parse_text in H as (s1 & s2 & s3 & _ & _ & _ & L & w1 & plus & w2 & pre & digits & ds & suf & w3 & E & _ & _ & _ & _ & _ & _ & F & _ & ->).
  assert (zlen ds <= 32) as B.
  { rewrite E in L. unfold zlen in *. rewrite !app_length in L. apply Forall2_len in F. lia. }
  assert (forall ds, Forall (fun d => 0 <= d < 16) ds -> 0 <= base16 ds < 16 ^ zlen ds) as K.
  { clear. intros ds. induction ds as [|d ds IH] using rev_ind; intros H; [unfold zlen; cbn; lia|].
    apply Forall_app in H as [H D]. apply Forall_inv in D. specialize (IH H). rewrite base16_snoc.
    unfold zlen in *. rewrite app_length. cbn [List.length]. rewrite Nat2Z.inj_add, Z.pow_add_r by lia. change (16 ^ Z.of_nat 1) with 16. lia. }
  assert (Forall (fun d => 0 <= d < 16) ds) as D by (clear -F; induction F as [|c d h ds [C _] F IH]; constructor; auto).
  specialize (K ds D). split; [lia|]. eapply Z.lt_le_trans; [apply K|].
  change (2 ^ 128) with (16 ^ 32). apply Z.pow_le_mono_r; lia.
Qed.

Lemma uuid_parse_spells s ds : spells s ds ->
  uuid_parse s = if zlen ds =? 32 then Ok (base16 ds) else Err ValueErr.
Proof.
  intros S. unfold uuid_parse.
  change (bytes_of_string "urn:") with ("u"%byte :: bytes_of_string "rn:").
  change (bytes_of_string "uuid:") with ("u"%byte :: bytes_of_string "uid:").
  assert (~ In "u"%byte s) as U by (intros I; destruct (spells_in s ds _ S I); congruence).
  rewrite (remove_all_none _ _ s) by exact U. rewrite (remove_all_none _ _ s) by exact U.
  rewrite strip_by_none by (intros b I; now destruct (spells_in s ds b S I)).
  rewrite remove_dash.
  pose proof (spells_filter s ds S) as F. cbn zeta in F.
  set (h := filter _ s) in *.
  pose proof (Forall2_len _ _ _ F) as L.
  unfold zlen. rewrite <- L. destruct (Nat.eqb_spec (List.length h) 32) as [E|E].
  - rewrite E. assert (long16 h = Some (base16 ds)) as ->; [|reflexivity].
    apply long16_literal. exists [], [], [], [], h, ds, [], []. cbn [app]. rewrite app_nil_r.
    repeat split; auto. intros ->. discriminate E.
  - destruct (Z.eqb_spec (Z.of_nat (List.length h)) 32); [lia|reflexivity].
Qed.

(** uuid_str *)
Fixpoint digits_of (n : nat) (z : Z) : list Z :=
  match n with O => [] | S n' => digits_of n' (z / 16) ++ [z mod 16] end.

Lemma hex_digits_spec n : forall z, Forall2 lower_char (hex_digits n z) (digits_of n z).
Proof.
  induction n as [|n IH]; intros z; cbn [hex_digits digits_of]; [constructor|].
  apply Forall2_app; [apply IH|]. constructor; [|constructor].
  apply lower_hexdigit. apply Z.mod_pos_bound. lia.
Qed.

Lemma digits_value n : forall z, 0 <= z < 16 ^ Z.of_nat n -> base16 (digits_of n z) = z.
Proof.
  induction n as [|n IH]; intros z R.
  - cbn in *. lia.
  - cbn [digits_of]. rewrite base16_snoc, IH.
    + pose proof (Z.div_mod z 16). lia.
    + rewrite Nat2Z.inj_succ, Z.pow_succ_r in R by lia.
      split; [apply Z.div_pos; lia|]. apply Z.div_lt_upper_bound; lia.
Qed.

Lemma spells_app a da b db : spells a da -> spells b db -> spells (a ++ b) (da ++ db).
Proof. induction 1; intros S; cbn; [exact S|constructor; auto|constructor; auto]. Qed.
Lemma spells_lower s ds : Forall2 lower_char s ds -> spells s ds.
Proof. induction 1; constructor; auto. now apply lower_is_hex. Qed.
Lemma spells_dash s ds : spells s ds -> spells ([x2d] ++ s) ds.
Proof. intros; now constructor. Qed.

Lemma Forall2_firstn {A B} (R : A -> B -> Prop) n : forall l l', Forall2 R l l' -> Forall2 R (firstn n l) (firstn n l').
Proof. induction n; intros l l' H; cbn; [constructor|]. inversion H; subst; constructor; auto. Qed.
Lemma Forall2_skipn {A B} (R : A -> B -> Prop) n : forall l l', Forall2 R l l' -> Forall2 R (skipn n l) (skipn n l').
Proof. induction n; intros l l' H; cbn; [exact H|]. inversion H; subst; [constructor|]; auto. Qed.

Lemma hex_digits_len n : forall z, List.length (hex_digits n z) = n.
Proof. induction n; intros; cbn; [reflexivity|]. rewrite app_length, IHn. cbn. lia. Qed.

Lemma skipn_split {A} (l : list A) n m : firstn m (skipn n l) ++ skipn (n + m) l = skipn n l.
Proof. rewrite Nat.add_comm, <- skipn_skipn. apply firstn_skipn. Qed.

Lemma uuid_str_spells u : spells (uuid_str u) (digits_of 32 u).
Proof.
  unfold uuid_str. cbn zeta. pose proof (hex_digits_spec 32 u) as F.
  set (h := hex_digits 32 u) in *. set (ds := digits_of 32 u) in *. change dash with x2d.
  assert (ds = firstn 8 ds ++ firstn 4 (skipn 8 ds) ++ firstn 4 (skipn 12 ds)
               ++ firstn 4 (skipn 16 ds) ++ skipn 20 ds) as E.
  { pose proof (skipn_split ds 16 4) as A. pose proof (skipn_split ds 12 4) as B.
    pose proof (skipn_split ds 8 4) as C. cbn [Nat.add] in A, B, C.
    rewrite A, B, C. now rewrite firstn_skipn. }
  rewrite E.
  apply spells_app; [apply spells_lower; now apply Forall2_firstn|]. apply spells_dash.
  apply spells_app; [apply spells_lower; now apply Forall2_firstn, Forall2_skipn|]. apply spells_dash.
  apply spells_app; [apply spells_lower; now apply Forall2_firstn, Forall2_skipn|]. apply spells_dash.
  apply spells_app; [apply spells_lower; now apply Forall2_firstn, Forall2_skipn|]. apply spells_dash.
  apply spells_lower. now apply Forall2_skipn.
Qed.

Lemma pow16_32 : 16 ^ Z.of_nat 32 = 2 ^ 128. Proof. reflexivity. Qed.

Lemma digits_len n : forall z, List.length (digits_of n z) = n.
Proof. induction n; intros; cbn [digits_of]; [reflexivity|]. rewrite app_length, IHn. cbn. lia. Qed.

Lemma uuid_parse_str u : is_uuid u -> uuid_parse (uuid_str u) = Ok u.
Proof.
  intros R. rewrite (uuid_parse_spells _ _ (uuid_str_spells u)).
  unfold zlen. rewrite digits_len. change (Z.of_nat 32 =? 32) with true.
  rewrite digits_value; [reflexivity|]. rewrite pow16_32. exact R.
Qed.

Lemma uuid_text u : is_uuid u -> exists ds a b c d e,
  base16 ds = u /\ grouped a b c d e (uuid_str u) /\ Forall2 lower_char (a ++ b ++ c ++ d ++ e) ds.
Proof.
  intros R. pose proof (hex_digits_spec 32 u) as F. pose proof (hex_digits_len 32 u) as L.
  set (h := hex_digits 32 u) in *.
  exists (digits_of 32 u), (firstn 8 h), (firstn 4 (skipn 8 h)), (firstn 4 (skipn 12 h)),
    (firstn 4 (skipn 16 h)), (skipn 20 h).
  split; [|split].
  - apply digits_value. rewrite pow16_32. exact R.
  - unfold grouped, zlen. rewrite !firstn_length, !skipn_length, L. repeat split; reflexivity.
  - pose proof (skipn_split h 16 4) as A. pose proof (skipn_split h 12 4) as B.
    pose proof (skipn_split h 8 4) as C. cbn [Nat.add] in A, B, C.
    rewrite A, B, C, firstn_skipn. exact F.
Qed.

Lemma lxor_uuid u v : is_uuid u -> is_uuid v -> is_uuid (Z.lxor u v).
Proof.
  intros [A B] [C D]. split.
  - apply Z.lxor_nonneg. tauto.
  - destruct (Z.eq_dec (Z.lxor u v) 0) as [->|N]; [reflexivity|].
    assert (0 <= Z.lxor u v) by (apply Z.lxor_nonneg; tauto).
    apply Z.log2_lt_pow2; [lia|].
    eapply Z.le_lt_trans; [apply Z.log2_lxor; assumption|].
    apply Z.max_lub_lt.
    + destruct (Z.eq_dec u 0) as [->|]; [reflexivity|]. apply Z.log2_lt_pow2; lia.
    + destruct (Z.eq_dec v 0) as [->|]; [reflexivity|]. apply Z.log2_lt_pow2; lia.
Qed.

Lemma uuid_xor_spec u v : is_uuid u -> is_uuid v -> uuid_xor u v = Ok (Z.lxor u v).
Proof.
  intros U V. pose proof (lxor_uuid u v U V) as R. unfold uuid_xor. cbn zeta.
  destruct R as [A B].
  assert ((0 <=? Z.lxor u v) && (Z.lxor u v <? 2 ^ 128) = true) as ->.
  { apply andb_true_intro. split; [now apply Z.leb_le|now apply Z.ltb_lt]. }
  now apply uuid_parse_str.
Qed.

Lemma uuid_str_inj u v : is_uuid u -> is_uuid v -> uuid_str u = uuid_str v -> u = v.
Proof.
  intros U V E. pose proof (uuid_parse_str u U) as A. rewrite E, (uuid_parse_str v V) in A. congruence.
Qed.

Lemma uuid_random_spec u fresh : is_uuid u ->
  uuid_random u fresh = if u =? 0 then (fresh, Some fresh) else (u, None).
Proof.
  intros U. unfold uuid_random, bytes_eqb.
  assert (nil_text = uuid_str 0) as N by reflexivity.
  destruct (list_eq_dec Byte.byte_eq_dec (uuid_str u) nil_text) as [E|E].
  - rewrite N in E. apply uuid_str_inj in E; [|exact U|unfold is_uuid; lia]. subst. reflexivity.
  - destruct (Z.eqb_spec u 0) as [->|]; [now rewrite N in E|reflexivity].
Qed.

Lemma uuid_bytes_roundtrip u pre post : is_uuid u ->
  zlen (uuid_get_bytes u) = 16 /\ value_msb_first (uuid_get_bytes u) = u /\
  uuid_unpack (pre ++ uuid_get_bytes u ++ post) (zlen pre) = Ok u.
Proof.
  intros R. unfold uuid_get_bytes. change (be_bytes 16 u) with (enc BE 16 u).
  assert (dec BE (enc BE 16 u) = u) as V.
  { rewrite dec_enc. apply Z.mod_small. exact R. }
  split; [apply zlen_enc|]. split; [rewrite value_msb_be; exact V|].
  unfold uuid_unpack.
  rewrite (pyslice_mid pre (enc BE 16 u) post) by (rewrite ?zlen_enc; cbn; lia).
  cbn zeta. rewrite enc_length, Nat.eqb_refl. f_equal. exact V.
Qed.

Lemma uuid_unpack_short pre s : zlen s < 16 -> uuid_unpack (pre ++ s) (zlen pre) = Err ValueErr.
Proof.
  intros L. unfold uuid_unpack. cbn zeta.
  assert (List.length (pyslice (pre ++ s) (zlen pre) (zlen pre + 16)) <> 16%nat) as N.
  { rewrite pyslice_pos by (pose proof (zlen_nonneg pre); lia).
    rewrite firstn_length, skipn_length, app_length. unfold zlen in *. lia. }
  destruct (Nat.eqb_spec (List.length (pyslice (pre ++ s) (zlen pre) (zlen pre + 16))) 16); [contradiction|reflexivity].
Qed.

(** int_to_bytes *)
Lemma int_to_bytes_spec pv n : exists b, int_to_bytes pv n = Ok b /\ zlen b = 4 /\
  value_lsb_first b = n mod 2 ^ 32.
Proof.
  unfold int_to_bytes.
  assert (forall z, pack_int pv LE false 1 (z mod 256) = Ok [chr z]) as P.
  { intros z. unfold pack_int. pose proof (Z.mod_pos_bound z 256 ltac:(lia)).
    assert (in_range false 1 (z mod 256) = true) as ->.
    { unfold in_range. change (2 ^ (8 * Z.of_nat 1)) with 256. lia. }
    f_equal. cbn. unfold chr. now rewrite Z.mod_mod. }
  rewrite !P. cbn [bind]. eexists. split; [reflexivity|]. split; [reflexivity|].
  cbn [app value_lsb_first]. change byte_value with ord. rewrite !ord_chr.
  rewrite !Z.shiftr_div_pow2 by lia.
  change (2 ^ 8) with 256. change (2 ^ 16) with (256 * 256). change (2 ^ 24) with (256 * (256 * 256)).
  change (2 ^ 32) with (256 * (256 * (256 * 256))).
  rewrite <- !Z.div_div by lia.
  rewrite (Z.rem_mul_r n 256) by lia.
  rewrite (Z.rem_mul_r (n / 256) 256) by lia.
  rewrite (Z.rem_mul_r (n / 256 / 256) 256) by lia. lia.
Qed.

(** bytes_to_hex *)
Lemma hex2_pair b : hex_pair (hex2 b) b.
Proof.
  pose proof (ord_range b). pose proof (Z.div_mod (ord b) 16 ltac:(lia)).
  pose proof (Z.mod_pos_bound (ord b) 16 ltac:(lia)).
  assert (0 <= ord b / 16 < 16) by (split; [apply Z.div_pos; lia|apply Z.div_lt_upper_bound; lia]).
  exists (hexdigit_upper (ord b / 16)), (hexdigit_upper (ord b mod 16)), (ord b / 16), (ord b mod 16).
  split; [reflexivity|]. split; [now apply upper_hexdigit|]. split; [now apply upper_hexdigit|].
  change byte_value with ord. lia.
Qed.

Lemma flat_hex data : data <> [] -> flat_map (fun x => hex2 x ++ [x20]) data = joined (map hex2 data) ++ [x20].
Proof.
  induction data as [|x data IH]; [congruence|]. intros _. cbn [flat_map map].
  destruct data as [|y data]; [cbn; reflexivity|].
  rewrite IH by discriminate. cbn [map joined]. rewrite <- !app_assoc. reflexivity.
Qed.

Lemma hex2_ends x : exists h l, hex2 x = [h; l] /\ is_ws h = false /\ is_ws l = false.
Proof.
  destruct (hex2_pair x) as (h & l & hi & lo & E & H & L & _). exists h, l.
  apply upper_is_hex, hex_char_plain in H. apply upper_is_hex, hex_char_plain in L. tauto.
Qed.

Lemma joined_last x data : exists p l, joined (map hex2 (x :: data)) = p ++ [l] /\ is_ws l = false.
Proof.
  revert x. induction data as [|y data IH]; intros x.
  - destruct (hex2_ends x) as (h & l & E & _ & L). exists [h], l. cbn [map joined]. now rewrite E.
  - destruct (IH y) as (p & l & E & L). exists (hex2 x ++ [x20] ++ p), l. split; [|exact L].
    change (joined (map hex2 (x :: y :: data))) with (hex2 x ++ [x20] ++ joined (map hex2 (y :: data))).
    rewrite E, <- !app_assoc. reflexivity.
Qed.

Lemma bytes_to_hex_joined data : bytes_to_hex data = joined (map hex2 data).
Proof.
  unfold bytes_to_hex. destruct data as [|x data]; [reflexivity|].
  rewrite flat_hex by discriminate. unfold strip_by.
  assert (lstrip_by is_ws (joined (map hex2 (x :: data)) ++ [x20]) = joined (map hex2 (x :: data)) ++ [x20]) as ->.
  { apply lstrip_by_id. intros b t E. destruct (hex2_ends x) as (h & l & X & H & _).
    destruct data; cbn [map joined] in E; rewrite X in E; cbn in E; now injection E as <- _. }
  rewrite rev_app_distr. cbn [rev app]. 
  change (lstrip_by is_ws (x20 :: rev (joined (map hex2 (x :: data)))))
    with (lstrip_by is_ws (rev (joined (map hex2 (x :: data))))).
  destruct (joined_last x data) as (p & l & E & L). rewrite E.
  rewrite rev_app_distr. cbn [rev app].
  rewrite lstrip_by_id by (intros b t H; now injection H as <- _).
  cbn [rev]. now rewrite rev_involutive.
Qed.

Lemma bytes_to_hex_spec data : exists pairs, Forall2 hex_pair pairs data /\ bytes_to_hex data = joined pairs.
Proof.
  exists (map hex2 data). split; [|apply bytes_to_hex_joined].
  induction data; cbn; constructor; auto using hex2_pair.
Qed.

Lemma joined_len data : zlen (joined (map hex2 data)) = Z.max 0 (3 * zlen data - 1).
Proof.
  induction data as [|x data IH]; [reflexivity|].
  destruct data as [|y data]; [reflexivity|].
  change (joined (map hex2 (x :: y :: data))) with (hex2 x ++ [x20] ++ joined (map hex2 (y :: data))).
  rewrite !zlen_app, IH. rewrite !zlen_cons. change (zlen (hex2 x)) with 2. change (zlen (@nil byte)) with 0.
  pose proof (zlen_nonneg data). lia.
Qed.

(** hex_to_ascii *)
Lemma chr_pair hi lo b : hex_char (hexdigit_lower hi) hi -> 0 <= lo < 16 -> chr (16 * hi + lo) = b <-> byte_value b = 16 * hi + lo.
Proof.
  intros [R _] S. change byte_value with ord. split.
  - intros <-. rewrite ord_chr. apply Z.mod_small. lia.
  - intros E. rewrite <- E. apply chr_ord.
Qed.

Lemma chr_value hi lo b : 0 <= hi < 16 -> 0 <= lo < 16 -> byte_value b = 16 * hi + lo -> chr (16 * hi + lo) = b.
Proof. intros _ _ E. rewrite <- E. apply chr_ord. Qed.

Lemma two_step {A} (P : list A -> Prop) : P [] -> (forall a, P [a]) ->
  (forall a b l, P l -> P (a :: b :: l)) -> forall l, P l.
Proof.
  intros H0 H1 H2. assert (forall l, P l /\ forall a, P (a :: l)) as G.
  { induction l as [|x l [IH1 IH2]]; split; auto. }
  intros l. apply G.
Qed.

Lemma unhexlify_ok s : forall d, unhexlify s = Ok d <-> hex_pairs s d.
Proof.
  induction s as [|a|a b s IH] using two_step; intros d; cbn.
  - split; [intros [= <-]; constructor|]. intros H. now inversion H.
  - split; [discriminate|]. intros H. inversion H.
  - split.
    + destruct (hexval a) as [x|] eqn:A; [|discriminate]. destruct (hexval b) as [y|] eqn:B; [|discriminate].
      intros H. apply bind_ok in H as (r & R & [= <-]). apply IH in R.
      apply hexval_char in A, B. econstructor; eauto.
      change byte_value with ord. rewrite ord_chr. apply Z.mod_small. destruct A, B. lia.
    + intros H. inversion H as [|h l hi lo c s' d' Ca Cb V P]; subst.
      pose proof Ca as [Ra _]. pose proof Cb as [Rb _].
      apply hexval_char in Ca, Cb. rewrite Ca, Cb. apply IH in P as ->. cbn. f_equal. f_equal.
      now apply chr_value.
Qed.

Lemma unhexlify_err s e : unhexlify s = Err e -> e = TypeErr.
Proof.
  induction s as [|a|a b s IH] using two_step; cbn; try congruence.
  destruct (hexval a); [|congruence]. destruct (hexval b); [|congruence].
  destruct (unhexlify s); cbn; [discriminate|]. exact IH.
Qed.

Lemma hex_to_ascii_ok s d : hex_to_ascii s = Ok d <-> hex_pairs s d.
Proof.
  rewrite <- unhexlify_ok. unfold hex_to_ascii. destruct (unhexlify s) as [r|e] eqn:E; [tauto|].
  apply unhexlify_err in E as ->. split; discriminate.
Qed.

Lemma hex_to_ascii_err s e : hex_to_ascii s = Err e <-> (e = DataParsingErr /\ ~ exists d, hex_pairs s d).
Proof.
  unfold hex_to_ascii. destruct (unhexlify s) as [r|x] eqn:E.
  - split; [discriminate|]. intros [_ N]. exfalso. apply N. exists r. now apply unhexlify_ok.
  - pose proof (unhexlify_err _ _ E) as ->. split.
    + intros [= <-]. split; [reflexivity|]. intros [d H]. apply unhexlify_ok in H. congruence.
    + intros [-> _]. reflexivity.
Qed.

Lemma hex_pairs_even s d : hex_pairs s d -> zlen s = 2 * zlen d.
Proof. induction 1; [reflexivity|]. rewrite !zlen_cons. lia. Qed.

Lemma unspaced data : spaces_removed (bytes_to_hex data) = flat_map hex2 data.
Proof.
  rewrite bytes_to_hex_joined.
  assert (forall x, spaces_removed (hex2 x) = hex2 x) as N.
  { intros x. destruct (hex2_pair x) as (h & l & hi & lo & -> & H & L & _).
    apply upper_is_hex, hex_char_plain in H as (_ & _ & _ & H & _).
    apply upper_is_hex, hex_char_plain in L as (_ & _ & _ & L & _).
    apply byte_eqb_false in H, L. unfold spaces_removed. cbn. now rewrite H, L. }
  induction data as [|x data IH]; [reflexivity|].
  destruct data as [|y data].
  - cbn [map joined flat_map]. now rewrite app_nil_r, N.
  - change (joined (map hex2 (x :: y :: data))) with (hex2 x ++ [x20] ++ joined (map hex2 (y :: data))).
    unfold spaces_removed in *. rewrite !filter_app, IH, N. reflexivity.
Qed.

Lemma flat_hex_pairs data : hex_pairs (flat_map hex2 data) data.
Proof.
  induction data as [|x data IH]; cbn; [constructor|].
  destruct (hex2_pair x) as (h & l & hi & lo & E & H & L & V). unfold hex2 in E. injection E as -> ->.
  econstructor; eauto using upper_is_hex.
Qed.

Lemma hex_roundtrip data : hex_to_ascii (spaces_removed (bytes_to_hex data)) = Ok data.
Proof. apply hex_to_ascii_ok. rewrite unspaced. apply flat_hex_pairs. Qed.

Lemma bytes_to_hex_inj a b : bytes_to_hex a = bytes_to_hex b -> a = b.
Proof.
  intros E. pose proof (hex_roundtrip a) as A. rewrite E, hex_roundtrip in A. congruence.
Qed.

Lemma hex_with_spaces data : 2 <= zlen data -> hex_to_ascii (bytes_to_hex data) = Err DataParsingErr.
Proof.
  intros L. apply hex_to_ascii_err. split; [reflexivity|]. intros [d H].
  rewrite bytes_to_hex_joined in H.
  destruct data as [|x [|y data]]; [change (zlen (@nil byte)) with 0 in L; lia|change (zlen [x]) with 1 in L; lia|].
  change (joined (map hex2 (x :: y :: data))) with (hex2 x ++ [x20] ++ joined (map hex2 (y :: data))) in H.
  unfold hex2 at 1 in H. cbn [app] in H.
  inversion H as [|h l hi lo c s' d' Ca Cb V P]; subst. inversion P as [|h l hi' lo' c' s' d'' Ca' Cb' V' P']; subst.
  apply hex_char_plain in Ca' as (_ & _ & _ & N & _). now apply N.
Qed.
