(** Proofs about exceptions (C75). *)
From Coq Require Import Ascii.
From Verif Require Import Lib SpecExceptions.
Local Open Scope string_scope.
Local Open Scope list_scope.

(** ** The hierarchy *)
Lemma catches_in_sound n : forall d c, catches_in n d c = true -> inherits c d.
Proof.
  induction n as [|n IH]; intros d c; cbn [catches_in]; intros H; apply orb_true_iff in H as [H|H].
  - apply internal_xclass_dec_bl in H as ->. constructor.
  - discriminate.
  - apply internal_xclass_dec_bl in H as ->. constructor.
  - destruct (base c) as [p|] eqn:B; [|discriminate]. econstructor; [exact B|]. now apply IH.
Qed.
Lemma catches_step d c p : base c = Some p -> catches d p = true -> catches d c = true.
Proof. destruct c; cbn [base]; intros [= <-]; destruct d; vm_compute; intros H; first [reflexivity | discriminate H]. Qed.
Lemma catches_spec d c : catches d c = true <-> inherits c d.
Proof.
  split; [apply catches_in_sound|]. induction 1 as [c|c p d B _ IH].
  - unfold catches. cbn [catches_in]. now rewrite (internal_xclass_dec_lb c c eq_refl).
  - exact (catches_step _ _ _ B IH).
Qed.
Lemma family_spec f ms c : In (f, ms) families -> inherits c f <-> c = f \/ In c ms.
Proof.
  intros F. rewrite <- catches_spec. cbn in F.
  repeat (destruct F as [F|F]; [injection F as <- <-; destruct c; vm_compute; intuition (discriminate || auto 10)|]).
  destruct F.
Qed.
Lemma families_cover c : c = PyException \/ c = XError \/ exists f ms, In (f, ms) families /\ (c = f \/ In c ms).
Proof.
  destruct c; auto; do 2 right.
  all: match goal with |- exists f ms, _ /\ (?c = _ \/ _) =>
    first [ exists c; eexists; split; [cbn; tauto|now left]
          | let b := eval cbv in (base c) in match b with Some ?p => exists p; eexists; split; [cbn; tauto|right; cbn; tauto] end ]
  end.
Qed.
Lemma all_errors c : c <> PyException -> inherits c XError.
Proof. intros N. apply catches_spec. destruct c; try reflexivity. contradiction. Qed.

(** ** Calls *)
Definition keys (ps : list (string * option pyobj)) := map fst ps.
Lemma place_spec ps : forall pos,
  place ps pos = if (List.length pos <=? List.length ps)%nat
                 then Ok (map Some pos ++ repeat None (List.length ps - List.length pos)) else Err TypeErr.
Proof.
  induction ps as [|p ps IH]; intros [|a pos]; try reflexivity.
  - cbn [place List.length Nat.leb Nat.sub map app]. f_equal. cbn [repeat]. f_equal.
    clear. induction ps as [|q ps IH]; [reflexivity|]. cbn. now rewrite IH.
  - cbn [place]. rewrite IH. cbn [List.length Nat.leb Nat.sub]. destruct (List.length pos <=? List.length ps)%nat; reflexivity.
Qed.
Lemma set_slot_spec ps : forall slots k v, NoDup (keys ps) -> List.length slots = List.length ps ->
  match set_slot ps slots k v with
  | Ok slots' => exists i d, nth_error ps i = Some (k, d) /\ nth_error slots i = Some None /\
      List.length slots' = List.length ps /\ nth_error slots' i = Some (Some v) /\
      forall j, j <> i -> nth_error slots' j = nth_error slots j
  | Err e => e = TypeErr /\ ~ exists i d, nth_error ps i = Some (k, d) /\ nth_error slots i = Some None
  end.
Proof.
  induction ps as [|[n d] ps IH]; intros slots k v N L.
  - cbn. split; [reflexivity|]. intros (i & d & H & _). destruct i; discriminate.
  - destruct slots as [|s slots]; [discriminate|]. cbn in L. injection L as L. inversion N as [|? ? N1 N2]; subst.
    cbn [set_slot]. destruct (String.eqb_spec n k) as [->|NK].
    + destruct s as [w|].
      * split; [reflexivity|]. intros ([|i] & d' & A & B); [discriminate|]. cbn in A. apply N1.
        apply (in_map fst _ (k, d')). now apply nth_error_In in A.
      * exists 0%nat, d. cbn. repeat split; [now rewrite L|]. intros [|j] H; [congruence|reflexivity].
    + specialize (IH slots k v N2 L). destruct (set_slot ps slots k v) as [slots'|e]; cbn [bind].
      * destruct IH as (i & d' & A & B & C & D & E). exists (S i), d'. cbn. repeat split; auto.
        intros [|j] H; [reflexivity|]. apply E. congruence.
      * destruct IH as [-> IH]. split; [reflexivity|]. intros ([|i] & d' & A & B); [cbn in A; congruence|].
        apply IH. exists i, d'. auto.
Qed.
Lemma names_inj ps i j k d e : NoDup (keys ps) -> nth_error ps i = Some (k, d) -> nth_error ps j = Some (k, e) -> i = j.
Proof.
  intros N A B. apply (proj1 (NoDup_nth_error _) N).
  - unfold keys. rewrite map_length. apply nth_error_Some. congruence.
  - unfold keys. rewrite !nth_error_map, A, B. reflexivity.
Qed.
Lemma sget_none_notin {V} k (kw : list (string * V)) : ~ In k (map fst kw) -> sget k kw = None.
Proof. intros H. now apply (dget_None _ string_eqb_spec). Qed.
Lemma set_slots_spec ps kw : forall slots, NoDup (keys ps) -> NoDup (map fst kw) -> List.length slots = List.length ps ->
  match set_slots ps slots kw with
  | Ok slots' => (forall k, In k (map fst kw) -> exists i d, nth_error ps i = Some (k, d) /\ nth_error slots i = Some None) /\
      List.length slots' = List.length ps /\
      forall i n d s, nth_error ps i = Some (n, d) -> nth_error slots i = Some s ->
        nth_error slots' i = Some (match s with Some v => Some v | None => sget n kw end)
  | Err e => e = TypeErr /\ ~ forall k, In k (map fst kw) -> exists i d, nth_error ps i = Some (k, d) /\ nth_error slots i = Some None
  end.
Proof.
  induction kw as [|[k v] kw IH]; intros slots N NK L; cbn [set_slots].
  - split; [intros k []|]. split; [exact L|]. intros i n d [w|] _ H; exact H.
  - pose proof (set_slot_spec ps slots k v N L) as S. destruct (set_slot ps slots k v) as [slots1|e]; cbn [bind].
    2: { destruct S as [-> S]. split; [reflexivity|]. intros H. apply S, H. now left. }
    destruct S as (i & d & A & B & C & D & E). cbn in NK. inversion NK as [|? ? K1 K2]; subst.
    specialize (IH slots1 N K2 C). destruct (set_slots ps slots1 kw) as [slots2|e].
    + destruct IH as (I1 & I2 & I3). split; [|split; [exact I2|]].
      * intros k' [<-|H]; [eauto|]. destruct (I1 k' H) as (j & d' & P & Q). exists j, d'. split; [exact P|].
        destruct (Nat.eq_dec j i) as [->|J]; [congruence|]. now rewrite <- (E j J).
      * intros j n d' s P Q. cbn [dget]. destruct (Nat.eq_dec j i) as [->|J].
        -- rewrite A in P. injection P as <- <-. rewrite B in Q. injection Q as <-.
           rewrite String.eqb_refl. rewrite (I3 i k d (Some v) A D). reflexivity.
        -- rewrite (I3 j n d' s P); [|now rewrite E]. destruct s as [w|]; [reflexivity|].
           destruct (String.eqb_spec n k) as [->|]; [|reflexivity]. destruct (J (names_inj _ _ _ _ _ _ N P A)).
    + destruct IH as [-> IH]. split; [reflexivity|]. intros H. apply IH. intros k' K'.
      destruct (H k' (or_intror K')) as (j & d' & P & Q). exists j, d'. split; [exact P|].
      destruct (Nat.eq_dec j i) as [->|J]; [|now rewrite E]. rewrite A in P. injection P as <- <-. contradiction.
Qed.
Lemma fill_spec ps : forall slots, List.length slots = List.length ps ->
  match fill ps slots with
  | Ok a => Forall2 (fun p q => fst p = fst q) ps a /\
      forall i n d s, nth_error ps i = Some (n, d) -> nth_error slots i = Some s ->
        exists v, nth_error a i = Some (n, v) /\ Some v = match s with Some v => Some v | None => d end
  | Err e => e = TypeErr /\ exists i n d, nth_error ps i = Some (n, d) /\ nth_error slots i = Some None /\ d = None
  end.
Proof.
  induction ps as [|[n d] ps IH]; intros slots L.
  - destruct slots; [|discriminate]. cbn. split; [constructor|]. intros [|i] ? ? ? H; discriminate.
  - destruct slots as [|s slots]; [discriminate|]. injection L as L. cbn [fill]. specialize (IH slots L).
    destruct (match s with Some v => Some v | None => d end) as [v|] eqn:V.
    + destruct (fill ps slots) as [a|e]; cbn [bind].
      * destruct IH as [F IH]. split; [constructor; [reflexivity|exact F]|].
        intros [|i] n' d' s' A B; [|exact (IH i n' d' s' A B)].
        cbn in A, B. injection A as <- <-. injection B as <-. exists v. split; [reflexivity|]. now rewrite V.
      * destruct IH as (-> & i & n' & d' & A & B). split; [reflexivity|]. exists (S i), n', d'. auto.
    + split; [reflexivity|]. exists 0%nat, n, d. cbn. destruct s as [w|]; [discriminate|]. auto.
Qed.
Lemma placed_nth {A} (pos : list A) n i : (i < n)%nat -> (List.length pos <= n)%nat ->
  nth_error (map Some pos ++ repeat None (n - List.length pos)) i = Some (nth_error pos i).
Proof.
  intros I L. destruct (Nat.lt_ge_cases i (List.length pos)) as [H|H].
  - rewrite nth_error_app1 by (now rewrite map_length). rewrite nth_error_map.
    destruct (nth_error pos i) eqn:E; [reflexivity|]. apply nth_error_None in E. lia.
  - rewrite nth_error_app2 by (now rewrite map_length). rewrite map_length.
    rewrite (proj2 (nth_error_None pos i) H). apply nth_error_repeat. lia.
Qed.
Lemma bind_spec ps pos kw : NoDup (keys ps) -> NoDup (map fst kw) ->
  match bind_args ps pos kw with
  | Ok a => well_called ps pos kw /\ map fst a = keys ps /\
      forall i n d, nth_error ps i = Some (n, d) -> exists v, sget n a = Some v /\ Some v = supplied pos kw i n d
  | Err e => e = TypeErr /\ ~ well_called ps pos kw
  end.
Proof.
  intros N K. unfold bind_args. rewrite place_spec.
  destruct (Nat.leb_spec (List.length pos) (List.length ps)) as [L|L]; cbn [bind].
  2: { split; [reflexivity|]. intros (W & _). lia. }
  set (slots := map Some pos ++ repeat None (List.length ps - List.length pos)).
  assert (List.length slots = List.length ps) as LS by (unfold slots; rewrite app_length, map_length, repeat_length; lia).
  assert (forall i x, nth_error ps i = Some x -> nth_error slots i = Some (nth_error pos i)) as NS.
  { intros i x H. apply placed_nth; [|exact L]. apply nth_error_Some. congruence. }
  clearbody slots.
  pose proof (set_slots_spec ps kw slots N K LS) as S. destruct (set_slots ps slots kw) as [slots'|e]; cbn [bind].
  2: { destruct S as [-> S]. split; [reflexivity|]. intros (_ & W & _). apply S. intros k H.
       destruct (W k H) as (i & d & A & B). exists i, d. split; [exact A|]. rewrite (NS _ _ A). f_equal. now apply nth_error_None. }
  destruct S as (S1 & S2 & S3). pose proof (fill_spec ps slots' S2) as F.
  assert (forall i n d, nth_error ps i = Some (n, d) ->
    match (match nth_error pos i with Some v => Some v | None => sget n kw end) with Some v => Some v | None => d end
    = supplied pos kw i n d) as SUP.
  { intros i n d _. unfold supplied. destruct (nth_error pos i); reflexivity. }
  destruct (fill ps slots') as [a|e].
  - destruct F as [F1 F2].
    assert (map fst a = keys ps) as KA.
    { clear -F1. unfold keys. induction F1 as [|p q ps a E _ IH]; [reflexivity|]. cbn. congruence. }
    assert (forall i n d, nth_error ps i = Some (n, d) -> exists v, nth_error a i = Some (n, v) /\ Some v = supplied pos kw i n d) as F3.
    { intros i n d A. destruct (F2 i n d _ A (S3 i n d _ A (NS _ _ A))) as (v & V1 & V2).
      exists v. split; [exact V1|]. rewrite V2. now apply SUP. }
    split; [|split; [exact KA|]].
    + split; [exact L|]. split.
      * intros k H. destruct (S1 k H) as (i & d & A & B). exists i, d. split; [exact A|].
        rewrite (NS _ _ A) in B. injection B as B. now apply nth_error_None.
      * intros i n d A. destruct (F3 i n d A) as (v & _ & <-). discriminate.
    + intros i n d A. destruct (F3 i n d A) as (v & V1 & V2). exists v. split; [|exact V2].
      apply (dget_In_nodup _ string_eqb_spec); [|now apply nth_error_In in V1].
      unfold dkeys. rewrite KA. exact N.
  - destruct F as (-> & i & n & d & A & B & D). split; [reflexivity|]. intros (_ & _ & W). apply (W i n d A).
    rewrite (S3 i n d _ A (NS _ _ A)) in B. injection B as B. subst d. rewrite <- (SUP i n None A). now rewrite B.
Qed.
Lemma params_nodup c ps : params c = Some ps -> NoDup (keys ps).
Proof.
  destruct c; cbn; intros [= <-]; cbn; repeat constructor; cbn; intuition discriminate.
Qed.

(** ** Texts *)
Lemma construct_attrs c ps pos kw x : params c = Some ps -> NoDup (map fst kw) -> construct c pos kw = Ok x ->
  x_class x = c /\ x_args x = pos /\ map fst (x_attrs x) = keys ps.
Proof.
  intros P K. unfold construct. rewrite P. pose proof (bind_spec ps pos kw (params_nodup _ _ P) K) as B.
  destruct (bind_args ps pos kw) as [a|e]; [|discriminate]. cbn [bind]. intros [= <-]. cbn. now destruct B as (_ & -> & _).
Qed.
Lemma construct_class c pos kw x : construct c pos kw = Ok x -> x_class x = c /\ x_args x = pos.
Proof.
  unfold construct. destruct (params c) as [ps|].
  - destruct (bind_args ps pos kw); [|discriminate]. intros [= <-]. auto.
  - destruct kw; [|discriminate]. intros [= <-]. auto.
Qed.
Lemma app_nil_s s : append s "" = s.
Proof. induction s as [|c s IH]; [reflexivity|]. cbn. now rewrite IH. Qed.
Ltac shape H :=
  repeat match type of H with
  | map fst ?l = _ :: _ => destruct l as [|[? ?] l]; [discriminate H|]; cbn [map fst] in H; injection H as -> H
  | map fst ?l = [] => destruct l; [clear H|discriminate H]
  end.
Lemma percent_one show fmt v : (forall l, v <> PTuple l) -> percent show fmt v = pyformat fmt [text show v].
Proof. intros H. destruct v as [s|l| |k]; try reflexivity. destruct (H l eq_refl). Qed.
Lemma str_plain show c pos kw x s : NoDup (map fst kw) -> construct c pos kw = Ok x ->
  says c (printed show x) = Some s ->
  (forall n l, single c = Some n -> attr x n <> Ok (PTuple l)) ->
  (c = XResourceNotFound -> exists u, attr x "url" = Ok (PStr u)) ->
  str show x = Ok s.
Proof.
  intros K C S T U. destruct (params c) as [ps|] eqn:P.
  2: { destruct c; discriminate. }
  destruct (construct_attrs c ps pos kw x P K C) as (E & _ & A).
  destruct x as [cl attrs args]. cbn [x_class x_attrs] in *. subst cl.
  unfold attr in *. cbn [x_attrs] in *.
  destruct c; cbn [params] in P; try discriminate P; injection P as <-; cbn [keys map fst] in A; shape A;
    cbn [says] in S; try discriminate S; injection S as <-; unfold str; cbn [x_class];
    unfold attr, printed; cbn [x_attrs dget String.eqb Ascii.eqb Bool.eqb bind fold_right].
  all: try (rewrite percent_one by (intros l ->; eapply T; reflexivity)).
  all: try (destruct (U eq_refl) as (u & [= ->]); reflexivity).
  all: unfold percent; cbn; unfold attr; cbn; rewrite ?app_nil_s; reflexivity.
Qed.
Lemma str_tuple show c pos kw x n l : NoDup (map fst kw) -> construct c pos kw = Ok x ->
  single c = Some n -> attr x n = Ok (PTuple l) ->
  match l with
  | [v] => exists s, says c (fun m => if String.eqb m n then text show v else printed show x m) = Some s /\ str show x = Ok s
  | _ => str show x = Err TypeErr
  end.
Proof.
  intros K C S T. destruct (params c) as [ps|] eqn:P.
  2: { destruct c; discriminate. }
  destruct (construct_attrs c ps pos kw x P K C) as (E & _ & A).
  destruct x as [cl attrs args]. cbn [x_class x_attrs] in *. subst cl.
  unfold attr in T. cbn [x_attrs] in T.
  destruct c; cbn [params] in P; try discriminate P; injection P as <-; cbn [keys map fst] in A; shape A;
    cbn [single] in S; try discriminate S; injection S as <-; cbn in T; injection T as ->;
    unfold str; cbn [x_class];
    unfold attr, printed; cbn [x_attrs dget String.eqb Ascii.eqb Bool.eqb bind].
  all: destruct l as [|v [|w l]]; [reflexivity| |reflexivity].
  all: eexists; split; [reflexivity|]; unfold percent; cbn; rewrite ?app_nil_s; reflexivity.
Qed.
Lemma str_url show pos kw x : NoDup (map fst kw) -> construct XResourceNotFound pos kw = Ok x ->
  (forall u, attr x "url" <> Ok (PStr u)) -> str show x = Err TypeErr.
Proof.
  intros K C U. destruct (construct_attrs XResourceNotFound _ pos kw x eq_refl K C) as (E & _ & A).
  unfold str. rewrite E. destruct x as [cl attrs args]. cbn [x_attrs keys map fst] in *. shape A. unfold attr in *. cbn in *.
  destruct p as [u| | |]; try reflexivity. destruct (U u eq_refl).
Qed.
Lemma str_python show c pos kw x a : construct c pos kw = Ok x -> says c a = None -> str show x = Ok (python_text show pos).
Proof.
  intros C S. destruct (construct_class _ _ _ _ C) as [E A]. unfold str. rewrite E.
  destruct c; cbn in S; try discriminate S; unfold base_str, python_text; rewrite A; destruct pos as [|v [|w pos]]; reflexivity.
Qed.
