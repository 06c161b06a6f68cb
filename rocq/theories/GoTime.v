(* The parts of package time used by go-syslog, on civil times.
   A time.Time is its civil fields as displayed plus the zone offset in seconds (zone names are not modelled).
   Simplification: time.Parse is modelled for the three layouts used by the repository
   (rfc5424/machine.go:50 RFC3339MICRO, time.Stamp and time.RFC3339 in rfc3164/machine.go), not for arbitrary layouts. *)
From Verif Require Import Bytes.
Local Open Scope Z_scope.

Record time := Time { t_year : Z; t_month : Z; t_day : Z; t_hour : Z; t_min : Z; t_sec : Z; t_nsec : Z; t_off : Z }.

(* zero value of time.Time: 0001-01-01 00:00:00 UTC *)
Definition time_zero : time := Time 1 1 1 0 0 0 0 0.

Definition zb (b : byte) : Z := Z.of_N (bN b).
Definition is_digit (b : byte) : bool := (48 <=? zb b) && (zb b <=? 57).
Definition dig (b : byte) : Z := zb b - 48.

Definition is_leap (y : Z) : bool := (y mod 4 =? 0) && (negb (y mod 100 =? 0) || (y mod 400 =? 0)).
Definition days_in (m y : Z) : Z :=
  if m =? 2 then (if is_leap y then 29 else 28)
  else if (m =? 4) || (m =? 6) || (m =? 9) || (m =? 11) then 30 else 31.

(* fraction digits -> nanoseconds *)
Fixpoint frac_ns (ds : bytes) (unit : Z) : Z :=
  match ds with [] => 0 | d :: r => dig d * unit + frac_ns r (unit / 10) end.

(* zone suffix "Z" or "+hh:mm" / "-hh:mm" *)
Definition parse_zone (r : bytes) : option Z :=
  match r with
  | [z] => if beqb z "Z" then Some 0 else None
  | [s; h1; h2; c; m1; m2] =>
      if forallb is_digit [h1; h2; m1; m2] && beqb c ":" then
        let o := (10 * dig h1 + dig h2) * 3600 + (10 * dig m1 + dig m2) * 60 in
        if beqb s "+" then Some o else if beqb s "-" then Some (- o) else None
      else None
  | _ => None
  end.

Fixpoint span_digits (r : bytes) : bytes * bytes :=
  match r with
  | d :: r' => if is_digit d then let '(a, b) := span_digits r' in (d :: a, b) else ([], r)
  | [] => ([], [])
  end.

Definition parse_frac (r : bytes) : Z * bytes :=
  match r with
  | dot :: r' => if beqb dot "." then let '(a, b) := span_digits r' in
                   match a with [] => (0, r) | _ => (frac_ns a 100000000, b) end
                 else (0, r)
  | [] => (0, r)
  end.

(* time.Parse of layouts "2006-01-02T15:04:05.999999Z07:00" and time.RFC3339: both accept an optional fraction.
   None stands for an error; on texts of the right shape and ranges the only error is "day out of range". *)
Definition parse_rfc3339 (text : bytes) : option time :=
  match text with
  | y1 :: y2 :: y3 :: y4 :: d1 :: o1 :: o2 :: d2 :: a1 :: a2 :: tee :: h1 :: h2 :: c1 :: m1 :: m2 :: c2 :: s1 :: s2 :: r =>
      if forallb is_digit [y1; y2; y3; y4; o1; o2; a1; a2; h1; h2; m1; m2; s1; s2]
         && beqb d1 "-" && beqb d2 "-" && beqb tee "T" && beqb c1 ":" && beqb c2 ":" then
        let y := 1000 * dig y1 + 100 * dig y2 + 10 * dig y3 + dig y4 in
        let mo := 10 * dig o1 + dig o2 in
        let d := 10 * dig a1 + dig a2 in
        let h := 10 * dig h1 + dig h2 in
        let mi := 10 * dig m1 + dig m2 in
        let s := 10 * dig s1 + dig s2 in
        let '(ns, r') := parse_frac r in
        match parse_zone r' with
        | Some off =>
            if (1 <=? mo) && (mo <=? 12) && (1 <=? d) && (d <=? days_in mo y) && (h <? 24) && (mi <? 60) && (s <? 60)
            then Some (Time y mo d h mi s ns off) else None
        | None => None
        end
      else None
  | _ => None
  end.

(* ---------- formatting ---------- *)
Definition digit_byte (z : Z) : byte := match Byte.of_N (Z.to_N (48 + z)) with Some b => b | None => "0"%byte end.
Definition d2 (z : Z) : bytes := [digit_byte ((z / 10) mod 10); digit_byte (z mod 10)].
Definition d4 (z : Z) : bytes := [digit_byte ((z / 1000) mod 10); digit_byte ((z / 100) mod 10)] ++ d2 z.

(* ".999999": at most six digits, trailing zeros dropped, nothing if all are zero *)
Fixpoint strip0 (l : bytes) : bytes :=
  match l with
  | [] => []
  | d :: r => match strip0 r with [] => if beqb d "0" then [] else [d] | r' => d :: r' end
  end.
Definition d6 (z : Z) : bytes :=
  [digit_byte ((z / 100000) mod 10); digit_byte ((z / 10000) mod 10); digit_byte ((z / 1000) mod 10);
   digit_byte ((z / 100) mod 10); digit_byte ((z / 10) mod 10); digit_byte (z mod 10)].
Definition fmt_frac (ns : Z) : bytes :=
  match strip0 (d6 (ns / 1000)) with [] => [] | l => "."%byte :: l end.
(* "Z07:00" *)
Definition fmt_zone (off : Z) : bytes :=
  if off =? 0 then ["Z"%byte]
  else let a := Z.abs off / 60 in (if off <? 0 then "-"%byte else "+"%byte) :: d2 (a / 60) ++ [":"%byte] ++ d2 (a mod 60).

(* Time.Format("2006-01-02T15:04:05.999999Z07:00"), for years 0..9999 *)
Definition format_micro (t : time) : bytes :=
  d4 (t_year t) ++ ["-"%byte] ++ d2 (t_month t) ++ ["-"%byte] ++ d2 (t_day t) ++ ["T"%byte] ++
  d2 (t_hour t) ++ [":"%byte] ++ d2 (t_min t) ++ [":"%byte] ++ d2 (t_sec t) ++ fmt_frac (t_nsec t) ++ fmt_zone (t_off t).

Example parse_ex : parse_rfc3339 (lit "2003-08-24T05:14:15.000003-07:00") = Some (Time 2003 8 24 5 14 15 3000 (-25200)).
Proof. vm_compute. reflexivity. Qed.
Example parse_bad_day : parse_rfc3339 (lit "2003-02-29T05:14:15Z") = None.
Proof. vm_compute. reflexivity. Qed.
Example format_ex : format_micro (Time 2003 8 24 5 14 15 3000 (-25200)) = lit "2003-08-24T05:14:15.000003-07:00".
Proof. vm_compute. reflexivity. Qed.
