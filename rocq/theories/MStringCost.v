(* rfc5424: what String copies.  The same functions as in MBuilder with a counter: the bytes that the concatenations of strings and
   fmt.Sprintf write (string_results in ThmStringCost.v: forgetting it gives MBuilder.to_string).  Not counted: the sorting, what
   Format of the timestamp and string(value[i]) write. *)
From Verif Require Import Bytes GoMap GoTime Common GotoLang M5424Def A5424 M5424 BuilderBaseDef GenBuilder ABuilder MBuilder.
Local Open Scope Z_scope.

Definition size (l : bytes) : Z := Z.of_nat (length l).
(* res += s in common/functions.go:36-38 and rfc5424/builder.go:9388-9403: Go makes a new string of both, unless one is empty; the
   string and what was written so far *)
Definition cat (a : bytes * Z) (s : bytes) : bytes * Z :=
  (fst a ++ s, snd a + match fst a, s with [], _ | _, [] => 0 | _, _ => size (fst a ++ s) end).
(* common/functions.go:31-42 EscapeBytes; skip: continuation bytes of the current rune *)
Fixpoint c_escape_loop (skip : nat) (l : bytes) (a : bytes * Z) : bytes * Z :=
  match l with
  | [] => a
  | b :: r =>
    match skip with
    | S k => c_escape_loop k r a
    | O => c_escape_loop (rune_rest b r) r (cat (if ((bN b =? 92) || (bN b =? 93) || (bN b =? 34))%N then cat a ["\"%byte] else a) (string_of_byte b))
    end
  end.
Definition c_escape (v : bytes) : bytes * Z := c_escape_loop 0 v ([], 0).
(* rfc5424/builder.go:9392-9402: sd += fmt.Sprintf(" %s=\"%s\"", name, common.EscapeBytes(params[name])) *)
Definition c_param (e : gmap bytes) (a : bytes * Z) (n : bytes) : bytes * Z :=
  let '(v, c) := c_escape (match mget e n with Some v => v | None => [] end) in
  let s := lit " " ++ n ++ lit "=""" ++ v ++ lit """" in
  cat (fst a, snd a + c + size s) s.
(* rfc5424/builder.go:9389-9404: the body of the loop over the elements *)
Definition c_elem (it : order) (m : sdmap) (a : bytes * Z) (id : bytes) : bytes * Z :=
  let e := match mget m id with Some e => e | None => [] end in
  let s := lit "[" ++ id in
  cat (fold_left (c_param e) (sort_strings (it (Some id) (map fst e))) (cat (fst a, snd a + size s) s)) (lit "]").
Definition c_sd (it : order) (m : sdmap) : bytes * Z := fold_left (c_elem it m) (sort_strings (it None (map fst m))) ([], 0).
(* rfc5424/builder.go:9351-9411 String *)
Definition c_string (it : order) (m : message) : option (bytes * Z) :=
  if msg_valid m then
    let '(sd, c) := match structuredData m with Some sd => c_sd it sd | None => (lit "-", 0) end in
    let '(tail, d) := match msg m with Some s => cat (lit " ", 0) s | None => ([], 0) end in
    let out := lit "<" ++ to_dec (match priority m with Some p => p | None => 0 end) ++ lit ">" ++ to_dec (version m) ++ lit " "
      ++ or_dash (match timestamp m with Some t => Some (format_micro t) | None => None end) ++ lit " "
      ++ or_dash (hostname m) ++ lit " " ++ or_dash (appname m) ++ lit " " ++ or_dash (procID m) ++ lit " " ++ or_dash (msgID m) ++ lit " "
      ++ sd ++ tail in
    Some (out, c + d + size out)
  else None.
(* what String writes; None: it returns an error *)
Definition writes (it : order) (m : message) : option Z := option_map snd (c_string it m).

Definition sd_message (sd : sdmap) : message := Message (Some 0) (Some 0) (Some 0) None None None None None None 1 (Some sd).
Example writes_ex : c_string any_order (sd_message [(lit "a", [(lit "b", lit "x]y")])]) = Some (lit "<0>1 - - - - - [a b=""x\]y""]", 70).
Proof. vm_compute. reflexivity. Qed.
