(* Locations with transitions (daylight saving time and the like): Location.lookup and time.Date of Go's package time, which
   rfc3164/machine.go:1163-1177 (set_timestamp) calls through time.ParseInLocation and Time.AddDate when WithLocaleTimezone is given.
   Package time is not part of the repository; time.Date has resolved readings near a transition in two ways over the releases of Go,
   both are modelled. *)
From Verif Require Import Bytes GoTime Cal.
Local Open Scope Z_scope.

(* ---- Location.lookup ---- *)
(* lookup(sec) of time/zoneinfo.go: the offset in effect at the instant and the half-open period [start, end) of instants it is in effect
   for; None: alpha, omega (no transition before, after) *)
Record period := Period { z_off : Z; z_start : option Z; z_end : option Z }.
Definition zone := Z -> period.
Definition before_start (p : period) (u : Z) : bool := match z_start p with Some s => u <? s | None => false end.
Definition past_end (p : period) (u : Z) : bool := match z_end p with Some e => e <=? u | None => false end.
Definition inside (p : period) (u : Z) : Prop := before_start p u = false /\ past_end p u = false.

(* the table of a location: the offset before the first transition, then the transitions (instant, new offset) in order;
   time/zoneinfo.go, the search over l.tx (there by bisection) *)
Fixpoint table_from (off : Z) (start : option Z) (tx : list (Z * Z)) (u : Z) : period :=
  match tx with
  | [] => Period off start None
  | (w, o) :: r => if u <? w then Period off start (Some w) else table_from o (Some w) r u
  end.
Definition table (off : Z) (tx : list (Z * Z)) : zone := table_from off None tx.

(* ---- time.Date ---- *)
(* the instant of the wall clock reading n: time/time.go, Date, "Look for zone offset for expected time, so we can adjust to UTC".
   Older releases: the period next to the one found *)
Definition unix_old (z : zone) (n : Z) : Z :=
  let p := z n in
  if z_off p =? 0 then n else
  let utc := n - z_off p in
  n - (if before_start p utc then match z_start p with Some s => z_off (z (s - 1)) | None => z_off p end
       else if past_end p utc then match z_end p with Some e => z_off (z e) | None => z_off p end
       else z_off p).
(* newer releases: the period of utc *)
Definition unix_new (z : zone) (n : Z) : Z :=
  let p := z n in
  if z_off p =? 0 then n else
  let utc := n - z_off p in
  n - (if before_start p utc || past_end p utc then z_off (z utc) else z_off p).
Definition old_go (z : zone) : location := Loc (fun u => z_off (z u)) (unix_old z).
Definition new_go (z : zone) : location := Loc (fun u => z_off (z u)) (unix_new z).

(* ---- what the theorems ask of a location ---- *)
(* lookup is consistent, the offsets are at most b seconds and the transitions at least 2 b seconds apart *)
Definition zone_ok (b : Z) (z : zone) : Prop := forall u,
  inside (z u) u /\ (forall v, inside (z u) v -> z v = z u) /\ Z.abs (z_off (z u)) <= b
  /\ match z_start (z u), z_end (z u) with Some s, Some e => s + 2 * b <= e | _, _ => True end.
(* every sorted table with such distances *)
Fixpoint spaced (b : Z) (start : option Z) (tx : list (Z * Z)) : Prop :=
  match tx with
  | [] => True
  | (w, o) :: r => Z.abs o <= b /\ match start with Some s => s + 2 * b <= w /\ s < w | None => True end /\ spaced b (Some w) r
  end.
(* no transition before the given instant *)
Definition first_transition_after (z : zone) (u : Z) : Prop := z_start (z u) = None.
