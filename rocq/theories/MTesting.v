(* testing/testing.go: the exported helpers of the package testing. *)
From Verif Require Import Bytes GoTime Cal.
Local Open Scope Z_scope.

(* testing/testing.go:14: letterBytes *)
Definition letter_bytes : bytes := lit "abcdefghijklmnopqrstuvwxyzABCDEFGHIJKLMNOPQRSTUVWXYZ".
(* testing/testing.go:22-38: RandomBytes.  src k is the result of the k-th call of src.Int63(), an arbitrary number; todo is i+1, acc is
   b[i+1:]; b[:i+1], which is still zero, is not represented.  None: fuel exhausted.  make panics for a negative n; n is a nat. *)
Fixpoint rb_loop (fuel : nat) (src : nat -> Z) (k : nat) (todo : nat) (cache remain : Z) (acc : bytes) : option bytes :=
  match fuel with
  | O => None
  | S fuel =>
      match todo with
      | O => Some acc
      | S todo' =>
          let '(k, cache, remain) := if remain =? 0 then (S k, src k, 63 / 6) else (k, cache, remain) in
          let idx := Z.land cache (2 ^ 6 - 1) in
          if idx <? Z.of_nat (length letter_bytes)
          then rb_loop fuel src k todo' (Z.shiftr cache 6) (remain - 1) (nth (Z.to_nat idx) letter_bytes x00 :: acc)
          else rb_loop fuel src k todo (Z.shiftr cache 6) (remain - 1) acc
      end
  end.
Definition random_bytes (fuel : nat) (src : nat -> Z) (n : nat) : option bytes := rb_loop fuel src 1 n (src 0%nat) (63 / 6) [].

(* testing/testing.go:40-47 *)
Definition max_priority : Z := 191.
Definition max_version : Z := 999.
Definition max_rfc3339micro : bytes := lit "2018-12-31T23:59:59.999999-23:59".
(* testing/testing.go:49-62: the arguments given to RandomBytes *)
Definition max_hostname_len : nat := 255.
Definition max_appname_len : nat := 48.
Definition max_procid_len : nat := 128.
Definition max_msgid_len : nat := 32.
Definition max_message_len : N := 7681.
Definition longer_max_message_len : N := 65018.

(* testing/testing.go:65-68: RightPad; None: strings.Repeat panics *)
Definition right_pad (str : bytes) (limit : Z) : option bytes :=
  if limit <? 0 then None else Some (firstn (Z.to_nat limit) (str ++ repeat " "%byte (Z.to_nat limit))).

(* testing/testing.go:87-89: YearTime; year: what time.Now().Year() returns *)
Definition year_time (year mm dd hh min ss : Z) : time := date_in utc year mm dd hh min ss 0.
