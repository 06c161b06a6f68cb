(* Sending RFC 5424 messages over the two transports: what is sent, independently of the parsers. *)
From Verif Require Import Bytes GoMap CommonFacts M5424Def M5424 BuilderBaseDef MBuilder ThmBuilder SpecOctet SpecNT.
Local Open Scope Z_scope.

(* a valid message of the library: made by builder calls, or returned without error by a parser *)
Definition sendable (m : message) : Prop :=
  (built m /\ msg_valid m = true) \/ exists pm data, snd (parse pm data) = Ret (Some m) None.
(* s is what String() returns for m (the order in which maps are visited is arbitrary) *)
Definition printed (m : message) (s : bytes) : Prop := exists it, is_order it /\ to_string it m = Some s.
(* octet counting: each text preceded by its length in decimal and a space *)
Definition decimal_of (ds : bytes) (n : Z) : Prop := ds <> [] /\ Forall digit ds /\ dec ds = n.
Inductive counted : list bytes -> bytes -> Prop :=
| ct_nil : counted [] []
| ct_cons ds s ss r : decimal_of ds (Z.of_nat (length s)) -> counted ss r -> counted (s :: ss) (ds ++ " "%byte :: s ++ r).

(* the trailer directly followed by '<' *)
Definition breaks (t : byte) (v : bytes) : Prop := exists a b, v = a ++ t :: "<"%byte :: b.
(* neither the message text nor a parameter value contains that *)
Definition unbroken (t : byte) (m : message) : Prop :=
  (forall g, msg m = Some g -> ~ breaks t g) /\ all_values (fun v => ~ breaks t v) m.
Definition with_msg (g : bytes) (m : message) : message := set_msg (Some g) m.
(* the same message up to the values of the parameters *)
Definition same_but_values (m' m : message) : Prop :=
  set_structuredData None m' = set_structuredData None m
  /\ map fst (sd_contents m') = map fst (sd_contents m)
  /\ forall id, map fst (elem_contents m' id) = map fst (elem_contents m id).
(* the trailers: line feed, NUL *)
Definition trailer_byte (t : byte) : Prop := t = "010"%byte \/ t = x00.
