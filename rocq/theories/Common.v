(* Package common and syslog.go. *)
From Verif Require Import Bytes.
Local Open Scope Z_scope.

(* Go int is 64 bit *)
Definition wrap64 (z : Z) : Z := (z + 2 ^ 63) mod 2 ^ 64 - 2 ^ 63.

(* common/functions.go:8-17 UnsafeUTF8DecimalCodePointsToInt: from the last byte to the first, with wrapping int arithmetic *)
Fixpoint dec_loop (rev_chars : bytes) (out ord : Z) : Z :=
  match rev_chars with
  | [] => out
  | c :: r => dec_loop r (wrap64 (out + wrap64 ((Z.of_N (bN c) - 48) * ord))) (wrap64 (ord * 10))
  end.
Definition dec_to_int (chars : bytes) : Z := dec_loop (rev chars) 0 1.

(* conversions uint8(int), uint16(int) *)
Definition to_u8 (z : Z) : Z := z mod 256.
Definition to_u16 (z : Z) : Z := z mod 65536.

(* common/functions.go:20-28 RemoveBytes; None is a slice panic *)
Fixpoint remove_loop (cp : bytes) (positions : list Z) (i offset : Z) : option bytes :=
  match positions with
  | [] => Some cp
  | pos :: r =>
      let at_ := pos - i - offset in
      if (0 <=? at_) && (at_ + 1 <=? Z.of_nat (length cp))
      then remove_loop (firstn (Z.to_nat at_) cp ++ skipn (Z.to_nat (at_ + 1)) cp) r (i + 1) offset
      else None
  end.
Definition remove_bytes (data : bytes) (positions : list Z) (offset : Z) : option bytes := remove_loop data positions 0 offset.

(* common/functions.go:43-56 *)
Definition in_between (v lo hi : Z) : bool := (lo <=? v) && (v <=? hi).
Definition valid_priority (p : Z) : bool := in_between p 0 191.
Definition valid_version (v : Z) : bool := in_between v 1 999.
