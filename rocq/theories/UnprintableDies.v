(** A lemma for C106: a failed send whose message cannot be printed. *)
From Verif Require Import Lib SpecWhole WholeProofs LiveManagerProofs DispatchProofs DispatchMore GreenletProofs GreenletAcks GreenletMore.
From Verif Require Import LiveManagerMore SpecCrowd CrowdProofs SpecMesh MeshProofs MeshMore MeshSource MeshHosts SpecEnds EndProofs.
Open Scope list_scope.

Lemma unprintable_ends env xs t r e o st : send_failed_unprintable env xs t r e -> started env xs t o st ->
  (~ is_acks o -> ended_with env xs t e) /\ (forall y, ended_with env (xs ++ [Resume t y]) t e).
Proof.
  intros (p & q & y0 & m & b & k & -> & NA0 & N & NM & ME) A.
  destruct (all_told env p t _ N) as (o' & st' & A' & K & _).
  assert (o' = o) as ->.
  { destruct A' as (p' & q' & -> & B1 & B2). apply (started_fun env _ t o' st' o st) with (2 := A).
    exists p', (q' ++ Resume t (Some y0) :: q). rewrite <- app_assoc. auto. }
  assert (after env (p ++ Resume t (Some y0) :: q) = fst (crun env (after env (p ++ [Resume t (Some y0)])) q)) as E.
  { unfold after. rewrite <- crun_app, <- app_assoc. reflexivity. }
  assert (contain y0 m = Err e) as C. { unfold contain. rewrite ME. destruct y0; try reflexivity. congruence. }
  assert (exists th, nth_error (cf_pool (after env (p ++ [Resume t (Some y0)]))) t = Some th /\ doomed e th /\ (~ is_acks o -> raised th = Some e)) as (th & Nt & D & R).
  { rewrite after_snoc. cbn [cstep]. rewrite N. cbn [resume]. rewrite NM, C. cbn [fst cf_pool].
    rewrite HeaderProofs.nth_update_eq.
    2:{ destruct (detach_all_map (cf_st (after env p)) [] (cf_pool (after env p))) as (g & _ & ->). rewrite map_length. apply nth_error_Some. congruence. }
    eexists. split; [reflexivity|]. destruct k as [|f last]; cbn [back_to].
    - split; [now left|reflexivity].
    - split; [right; eauto|]. intros NA. elim NA. destruct K as (h & _ & _ & IA & _). exact IA. }
  destruct (crun_doomed env q _ t e th Nt D) as (th' & N' & D'). rewrite <- E in N'. split.
  - intros NA. specialize (R NA). exists th. rewrite E. split; [|exact R].
    destruct th as [y| | | |]; try discriminate. now apply crun_finished.
  - intros y. destruct (cstep_doomed env _ (Resume t y) t e th' N' D') as (th2 & N2 & _ & R2).
    exists th2. rewrite after_snoc. eauto.
Qed.
