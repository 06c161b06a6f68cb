(* The part of package fmt (Go standard library) that the project uses: Sprintf and Errorf with the verbs %d and %s. *)
From Verif Require Import Bytes GoMap GoTime Common M5424Def M5424 MBuilder.
Local Open Scope Z_scope.

(* an argument: an integer, or something printed by %s (a string, a []byte, an error, a Stringer) as its text *)
Inductive farg := FInt (z : Z) | FStr (s : bytes).
(* %d; 20 digits are enough for the 64-bit types *)
Definition dec_text (z : Z) : bytes := if z <? 0 then lit "-" ++ to_dec (- z) else to_dec z.
Definition verb (v : byte) (a : farg) : bytes :=
  match a with
  | FInt z => if beqb v "d" then dec_text z else lit "%!" ++ [v] ++ lit "(int=" ++ dec_text z ++ lit ")"
  | FStr s => if beqb v "s" then s else lit "%!" ++ [v] ++ lit "(string=" ++ s ++ lit ")"
  end.
(* fmt.Sprintf, fmt.Errorf: text is copied, each verb takes the next argument.  Flags, widths, the other verbs and surplus
   arguments (never used by the project) are not modelled. *)
Fixpoint sprintf (f : bytes) (args : list farg) : bytes :=
  match f with
  | [] => []
  | c :: f =>
      if beqb c "%" then
        match f with
        | [] => lit "%!(NOVERB)"
        | v :: f =>
            if beqb v "%" then "%"%byte :: sprintf f args else
            match args with a :: args => verb v a ++ sprintf f args | [] => lit "%!" ++ [v] ++ lit "(MISSING)" ++ sprintf f [] end
        end
      else c :: sprintf f args
  end.

(* text without a verb is copied *)
Lemma sprintf_copy w f args : Forall (fun b => b <> "%"%byte) w -> sprintf (w ++ f) args = w ++ sprintf f args.
Proof.
  induction 1 as [|b w Hb _ IH]; [reflexivity|]. cbn [app sprintf]. destruct (beqb b "%") eqn:E; [apply beqb_eq in E; contradiction|].
  rewrite IH. reflexivity.
Qed.
Definition no_verb (w : bytes) : bool := forallb (fun b => negb (beqb b "%")) w.
Lemma no_verb_ok w : no_verb w = true -> Forall (fun b => b <> "%"%byte) w.
Proof.
  intros H. apply Forall_forall. intros b Hb E. apply (proj1 (forallb_forall _ _) H) in Hb. apply negb_true_iff in Hb.
  apply beqb_eq in E. congruence.
Qed.

(* rfc5424/builder.go:9356,9410: the template of String gives exactly the text of the model (MBuilder.to_string) *)
Definition string_template : bytes := lit "<%d>%d %s %s %s %s %s %s%s".
Theorem string_by_template it m : msg_valid m = true ->
  to_string it m = Some (sprintf string_template
    [FInt (match priority m with Some p => p | None => 0 end); FInt (version m);
     FStr (or_dash (match timestamp m with Some t => Some (format_micro t) | None => None end));
     FStr (or_dash (hostname m)); FStr (or_dash (appname m)); FStr (or_dash (procID m)); FStr (or_dash (msgID m));
     FStr (match structuredData m with Some sd => sd_string it sd | None => lit "-" end);
     FStr (match msg m with Some s => lit " " ++ s | None => [] end)]).
Proof.
  intros Hv. unfold to_string. rewrite Hv. f_equal.
  assert (Hp : 0 <= match priority m with Some p => p | None => 0 end).
  { unfold msg_valid in Hv. destruct (priority m) as [p|]; [|discriminate]. apply andb_true_iff in Hv as [H _]. unfold valid_priority, in_between in H. lia. }
  assert (Hn : 0 <= version m). { unfold msg_valid in Hv. apply andb_true_iff in Hv as [_ H]. unfold valid_version, in_between in H. lia. }
  assert (Hd : forall z, 0 <= z -> dec_text z = to_dec z). { intros z Hz. unfold dec_text. destruct (Z.ltb_spec z 0); [lia|reflexivity]. }
  generalize dependent (match priority m with Some p => p | None => 0 end). intros p Hp.
  set (ts := or_dash (match timestamp m with Some t => Some (format_micro t) | None => None end)). set (h := or_dash (hostname m)). set (a := or_dash (appname m)).
  set (pid := or_dash (procID m)). set (mid := or_dash (msgID m)). set (sd := match structuredData m with Some sd => sd_string it sd | None => lit "-" end).
  set (mm := match msg m with Some s => lit " " ++ s | None => [] end).
  rewrite <- (Hd p Hp), <- (Hd (version m) Hn).
  change (sprintf string_template _) with ("<"%byte :: dec_text p ++ ">"%byte :: dec_text (version m) ++ " "%byte :: ts ++ " "%byte :: h ++ " "%byte :: a ++ " "%byte :: pid ++ " "%byte :: mid ++ " "%byte :: sd ++ mm ++ []).
  rewrite app_nil_r. reflexivity.
Qed.
(* builder.go:9390,9401 *)
Theorem element_by_template id : sprintf (lit "[%s") [FStr id] = lit "[" ++ id.
Proof. cbn. rewrite app_nil_r. reflexivity. Qed.
Theorem param_by_template n v : sprintf (lit " %s=""%s""") [FStr n; FStr v] = lit " " ++ n ++ lit "=""" ++ v ++ lit """".
Proof. reflexivity. Qed.
Example sprintf_ex : sprintf (lit "%d of %s, 100%%") [FInt (-12); FStr (lit "x")] = lit "-12 of x, 100%". Proof. vm_compute. reflexivity. Qed.
