(** Specification vocabulary for C68-C70: waiting, the watcher of stop(), and
    capabilities over the default HTTP client. *)
From Coq Require Import Reals.
From Verif Require Import SpecFloats Waiting.

(** ** Wait *)

(** A clock reading that can be trusted to be subtracted exactly: a finite
    number of seconds, not before [start] and at most twice it (seconds since
    1970: the clock does not run backwards, nor for another half century). *)
Definition clock_ok (start now : pyfloat) : Prop :=
  valid64 now = true /\ finite_float now /\ (rv start <= rv now <= 2 * rv start)%R.

(** By the clock, less than [d] seconds have passed since [start]. *)
Definition too_soon (d : Z) (start now : pyfloat) : Prop := (rv now - rv start < IZR d)%R.

(** A pass that keeps a wait of [d] seconds waiting: nobody stopped it, and
    either the clock says it is too soon or the pass raised AssertionError. *)
Definition quiet (d : Z) (start : pyfloat) (t : tick) : Prop :=
  t_stop t = false /\
  match t_pass t with Slept now => too_soon d start now | SleepRaised e => e = AssertionErr end.

Definition good_clock (start : pyfloat) (ticks : list tick) : Prop :=
  valid64 start = true /\ finite_float start /\ (0 <= rv start)%R /\
  forall t now, In t ticks -> t_pass t = Slept now -> clock_ok start now.

(** What a pass that is not quiet makes the wait do. *)
Definition pass_ends (t : tick) : res bool :=
  match t_pass t with
  | SleepRaised AssertionErr => Ok true
  | SleepRaised e => Err e
  | Slept _ => Ok true
  end.

(** ** Capabilities over urllib2 *)

(** What a server that is asked [q] answers with success: these headers, this
    body (whatever the success code and reason are). *)
Definition answered (r : url_result) (headers : list (string * string)) (b : bytes) : Prop :=
  exists code msg, r = UrlOk code msg headers b.
(** ... with an HTTP error of this code. *)
Definition refused (r : url_result) (code : Z) : Prop := exists msg fp, r = UrlHTTPError code msg fp.

(** The exception an HTTP error is reported with. *)
Definition reported_as (url method : string) (code : Z) (e : exn) : Prop :=
  (code = 404 /\ e = ResourceNotFoundErr url) \/ (code <> 404 /\ e = ResourceErr url code method).
