(** Facts about the flex loop, for any list of rules. *)
From Verif Require Import Base NumStr Json.
Local Open Scope Z_scope.

Section Lex.
  Context {T : Type} (rules : list ((list Z -> option nat) * (list Z -> option (option T)))).

  Definition lexes (text : list Z) (ts : list T) : Prop :=
    forall fuel, (length text <= fuel)%nat -> lex rules fuel text = Some ts.

  Definition put (t : option T) (ts : list T) : list T := match t with Some t => t :: ts | None => ts end.

  Lemma lexes_nil : lexes [] [].
  Proof. intros [|fuel] _; done. Qed.

  Lemma lex_eq f c t : lex rules (S f) (c :: t) =
    (r ← select rules (c :: t) None; let '(n, act) := (r : nat * (list Z -> option (option T))) in
     if Nat.eqb n 0 then None else t0 ← act (take n (c :: t)); l ← lex rules f (drop n (c :: t));
     Some (put t0 l)).
  Proof. reflexivity. Qed.

  Lemma lex_mono f : forall text l, lex rules f text = Some l -> lex rules (S f) text = Some l.
  Proof.
    induction f as [|f IH]; intros text l; [by destruct text|]. destruct text as [|c t]; [done|].
    rewrite !lex_eq. destruct (select rules (c :: t) None) as [[n act]|]; [|done]. cbn [mbind option_bind].
    destruct (Nat.eqb n 0); [done|]. destruct (act (take n (c :: t))) as [o|]; [|done]. cbn [mbind option_bind].
    destruct (lex rules f (drop n (c :: t))) as [l'|] eqn:E; [|done]. by rewrite (IH _ _ E).
  Qed.

  Lemma lexes_tok w rest act t ts : select rules (w ++ rest) None = Some (length w, act) -> w <> [] -> act w = Some t ->
    lexes rest ts -> lexes (w ++ rest) (put t ts).
  Proof.
    intros E N A R fuel L. destruct w as [|c w]; [exfalso; by apply N|]. cbn [app length] in *. destruct fuel as [|fuel]; [lia|].
    rewrite lex_eq, E. cbn [mbind option_bind Nat.eqb take drop]. rewrite take_app, A. cbn [mbind option_bind].
    rewrite drop_app. rewrite R; [done|]. rewrite app_length in L. lia.
  Qed.

  Context (Hspace : forall c rest, isspace c = true -> select rules (c :: rest) None = Some (S (run isspace rest), fun _ => Some None)).

  Lemma lexes_space c rest ts : isspace c = true -> lexes rest ts -> lexes (c :: rest) ts.
  Proof.
    intros Hc R fuel L. destruct fuel as [|fuel]; [cbn in L; lia|]. rewrite lex_eq, Hspace by done.
    cbn [mbind option_bind Nat.eqb take drop put].
    destruct rest as [|d rest]; [cbn [run drop]; rewrite R by (cbn; lia); done|].
    cbn [run]. destruct (isspace d) eqn:Hd.
    - cbn [drop]. cbn in L. destruct fuel as [|fuel]; [lia|].
      pose proof (R (S fuel) ltac:(cbn; lia)) as E. rewrite lex_eq, Hspace in E by done.
      cbn [mbind option_bind Nat.eqb take drop put] in E.
      destruct (lex rules fuel (drop (run isspace rest) rest)) as [l|] eqn:El; cbn in E; [|done]. injection E as ->.
      by rewrite (lex_mono _ _ _ El).
    - cbn [drop]. rewrite R by (cbn in *; lia). done.
  Qed.

  Lemma lexes_spaces n rest ts : lexes rest ts -> lexes (spaces n ++ rest) ts.
  Proof. intros R. unfold spaces. induction n as [|n IH]; [done|]. cbn [replicate app]. by apply lexes_space. Qed.
End Lex.

Section Select.
  Context {T : Type}.
  Implicit Types rules : list ((list Z -> option nat) * (list Z -> option T)).
  Lemma select_none m act rules text best : m text = None -> select ((m, act) :: rules) text best = select rules text best.
  Proof. intros E. cbn [select]. by rewrite E. Qed.
  Lemma select_first m act rules text n : m text = Some n -> select ((m, act) :: rules) text None = select rules text (Some (n, act)).
  Proof. intros E. cbn [select]. by rewrite E. Qed.
  Lemma select_keep m act rules text n n' act' : m text = Some n -> (n <= n')%nat ->
    select ((m, act) :: rules) text (Some (n', act')) = select rules text (Some (n', act')).
  Proof. intros E L. cbn [select]. rewrite E. by destruct (Nat.ltb_spec n' n); [lia|]. Qed.
  Lemma select_longer m act rules text n n' act' : m text = Some n -> (n' < n)%nat ->
    select ((m, act) :: rules) text (Some (n', act')) = select rules text (Some (n, act)).
  Proof. intros E L. cbn [select]. rewrite E. by destruct (Nat.ltb_spec n' n); [|lia]. Qed.
End Select.

Definition dig (c : Z) : Prop := 48 <= c <= 57.

Lemma run_app p l rest : Forall (fun c => p c = true) l -> match rest with c :: _ => p c = false | [] => True end ->
  run p (l ++ rest) = length l.
Proof.
  intros F H. induction F as [|c l Hc _ IH]; cbn; [|by rewrite Hc, IH]. destruct rest as [|c r]; cbn; [done|]. by rewrite H.
Qed.
Lemma isdigit_dig c : isdigit c = true <-> dig c.
Proof. unfold isdigit, dig. lia. Qed.
Lemma run_digits ds rest : Forall dig ds -> match rest with c :: _ => ~ dig c | [] => True end -> run isdigit (ds ++ rest) = length ds.
Proof.
  intros F H. apply run_app.
  - eapply Forall_impl; [exact F|]. intros c Hc. by apply isdigit_dig.
  - destruct rest as [|c r]; [done|]. apply not_true_is_false. by rewrite isdigit_dig.
Qed.
