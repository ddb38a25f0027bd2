(** C87: locations in messages of parsers (src/lexer.h:19-79). *)
From Verif Require Import Base Lloc.
Local Open Scope Z_scope.

(** *** The statements' own vocabulary *)
(** The line and the column of a position: lines are counted from 1, columns from 0, both by the bytes before. *)
Fixpoint lines (l : list Z) : Z := match l with [] => 0 | c :: l => (if c =? 10 then 1 else 0) + lines l end.
Definition is_location (text : list Z) (p : nat) (l : lloc) : Prop :=
  offset l = Z.of_nat p /\ lineno l = 1 + lines (take p text) /\
  exists before line, take p text = before ++ line /\ Forall (fun c => c <> 10) line /\ column l = Z.of_nat (length line) /\
    (before = [] \/ exists b, before = b ++ [10]).

Lemma lines_app a b : lines (a ++ b) = lines a + lines b.
Proof. induction a as [|c a IH]; cbn; [done|]. lia. Qed.
Lemma lines_le a : 0 <= lines a <= Z.of_nat (length a).
Proof. induction a as [|c a IH]; cbn; [done|]. destruct (c =? 10); lia. Qed.

Lemma location_next text p l c : is_location text p l -> text !! p = Some c -> Z.of_nat (length text) < 2 ^ 31 - 1 ->
  exists l', advance text 0 l = Some l' /\ is_location text (S p) l'.
Proof.
  intros (Ho & Hn & before & line & Et & Hl & Hc & Hb) Ec L. pose proof (lookup_lt_Some _ _ _ Ec) as Lp.
  assert (Es : take (S p) text = take p text ++ [c]) by (by apply take_S_r).
  pose proof (lines_le (take p text)) as Ll. rewrite take_length in Ll.
  assert (Lc : (length line <= p)%nat). { apply (f_equal length) in Et. rewrite take_length, app_length in Et. lia. }
  unfold advance. rewrite Ho. destruct (Z.ltb_spec (Z.of_nat p) 0); [lia|]. rewrite Nat2Z.id. cbn [Nat.add]. rewrite (rd_lu _ _ _ Ec). cbn [mbind option_bind].
  destruct (Z.eqb_spec c 10) as [->|Nc]; unfold incr.
  - destruct (Z.ltb_spec (lineno l) (2 ^ 31 - 1)); [|lia]. destruct (Z.ltb_spec (Z.of_nat p) (2 ^ 31 - 1)); [|lia]. cbn [mbind option_bind].
    eexists. split; [done|]. split; [cbn; lia|]. cbn [lineno column]. rewrite Es, lines_app, Hn. split; [change (lines [10]) with 1; lia|].
    exists (take p text ++ [10]), []. rewrite app_nil_r. split; [done|]. split; [constructor|]. split; [done|]. right. eauto.
  - destruct (Z.ltb_spec (column l) (2 ^ 31 - 1)); [|lia]. destruct (Z.ltb_spec (Z.of_nat p) (2 ^ 31 - 1)); [|lia]. cbn [mbind option_bind].
    eexists. split; [done|]. split; [cbn; lia|]. cbn [lineno column]. rewrite Es, lines_app, Hn. cbn [lines]. destruct (Z.eqb_spec c 10); [done|]. split; [lia|].
    exists before, (line ++ [c]). rewrite Et, app_assoc. split; [done|]. split; [by apply Forall_app; split; [|constructor]|]. rewrite app_length. cbn. split; [lia|done].
Qed.

Lemma location_to text q : (q <= length text)%nat -> Z.of_nat (length text) < 2 ^ 31 - 1 -> forall fuel p l, is_location text p l -> (p <= q)%nat -> (q - p <= fuel)%nat ->
  exists l', advance_to fuel text 0 l q = Some l' /\ is_location text q l'.
Proof.
  intros Hq L. induction fuel as [|fuel IH]; intros p l Hl Hp Hf; cbn [advance_to]; pose proof (proj1 Hl) as Ho.
  - assert (p = q) as -> by lia. destruct (Z.ltb_spec (Z.of_nat 0 + offset l) (Z.of_nat q)); [lia|]. eauto.
  - destruct (Z.ltb_spec (Z.of_nat 0 + offset l) (Z.of_nat q)).
    + destruct (lookup_lt_is_Some_2 text p) as [c Ec]; [lia|]. destruct (location_next text p l c Hl Ec L) as (l1 & -> & H1). cbn [mbind option_bind].
      apply (IH (S p)); [done|lia|lia].
    + assert (p = q) as -> by lia. eauto.
Qed.

Definition total (lens : list nat) : nat := foldr Nat.add 0%nat lens.

Lemma calc_ok text p l q : is_location text p l -> (p <= q <= length text)%nat -> Z.of_nat (length text) < 2 ^ 31 - 1 ->
  exists l', calc_lloc text (LS (Some 0%nat) l) q = Some (LS (Some 0%nat) l') /\ is_location text q l'.
Proof.
  intros Hl Hq L. unfold calc_lloc. cbn [buf cur]. destruct (location_to text q ltac:(lia) L (length text) p l Hl) as (l' & -> & H'); [lia|lia|].
  cbn [mbind option_bind]. eauto.
Qed.

Lemma scan_ok text : Z.of_nat (length text) < 2 ^ 31 - 1 -> forall lens p l s, is_location text p l -> (p + total lens <= length text)%nat ->
  s = LS (Some 0%nat) l \/ (s = lstart /\ p = 0%nat) ->
  exists ts s', scan text s p lens = Some (ts, s') /\ length ts = length lens /\
    forall a n b, lens = a ++ n :: b -> exists t, ts !! length a = Some t /\ is_location text (p + total a) (start t) /\ is_location text (p + total a + n) (tend t).
Proof.
  intros L. induction lens as [|n lens IH]; intros p l s Hl Hp Hs; cbn [scan].
  - exists [], s. split; [done|]. split; [done|]. intros [|] ? ? ?; done.
  - cbn [total foldr] in Hp. change (foldr Nat.add 0%nat lens) with (total lens) in Hp.
    assert (C1 : exists l1, calc_lloc text s p = Some (LS (Some 0%nat) l1) /\ is_location text p l1).
    { destruct Hs as [->|[-> ->]]; [apply (calc_ok _ p); [done|lia|done]|]. exists (Lloc 1 0 0). split; [done|].
      split; [done|]. split; [done|]. exists [], []. split; [done|]. split; [constructor|]. split; [done|by left]. }
    destruct C1 as (l1 & E1 & H1). destruct (calc_ok text p l1 (p + n) H1) as (l2 & E2 & H2); [lia|done|].
    unfold user_action. rewrite E1. cbn [mbind option_bind cur]. rewrite E2. cbn [mbind option_bind cur].
    destruct (IH (p + n)%nat l2 (LS (Some 0%nat) l2) H2) as (ts & s' & E & Lt & H); [lia|by left|]. rewrite E. cbn [mbind option_bind].
    eexists _, _. split; [done|]. split; [cbn; lia|]. intros [|m a] k b Ea.
    + injection Ea as <- <-. exists (Token l1 l2). split; [done|]. cbn. by rewrite Nat.add_0_r.
    + injection Ea as <- ->. destruct (H a k b eq_refl) as (t & Et & Ht). exists t. split; [done|]. cbn [total foldr]. change (foldr Nat.add 0%nat a) with (total a).
      by rewrite Nat.add_assoc.
Qed.

(** C87: the location of each token is that of its first byte and of the byte behind it. *)
Theorem C87_token_locations : forall text lens, (total lens <= length text)%nat -> Z.of_nat (length text) < 2 ^ 31 - 1 ->
  exists ts s, scan text lstart 0 lens = Some (ts, s) /\ length ts = length lens /\
    forall a n b, lens = a ++ n :: b -> exists t, ts !! length a = Some t /\
      is_location text (total a) (start t) /\ is_location text (total a + n) (tend t).
Proof.
  intros text lens H L. apply (scan_ok text L lens 0 (Lloc 1 0 0)); [|done|by right].
  split; [done|]. split; [done|]. exists [], []. split; [done|]. split; [constructor|]. split; [done|by left].
Qed.
Print Assumptions C87_token_locations.

(** Locations are determined. *)
Theorem C87_unique : forall text p l l', is_location text p l -> is_location text p l' -> l = l'.
Proof.
  intros text p [n c o] [n' c' o'] (H1 & H2 & b & x & E & F & C & B) (H1' & H2' & b' & x' & E' & F' & C' & B'). cbn in *.
  assert (x = x') as <-; [|congruence].
  rewrite E in E'. apply app_eq_inv in E' as [(k & E1 & E2)|(k & E1 & E2)].
  - destruct k as [|y k _] using rev_ind; [by cbn in E2|]. exfalso. subst x'. destruct B' as [B'|[b0 B']].
    + (* the shorter prefix is not empty *) subst b'. cbn in *. destruct B as [->|[b1 ->]]; [by destruct k|].
      rewrite E1 in *. apply app_inj_tail in E1 as [_ <-]. apply Forall_app in F' as [F' _]. apply Forall_app in F' as [_ F']. by inversion F'.
    + rewrite E1 in *. destruct B as [B|[b1 B]]; [by destruct b', k|]. rewrite app_assoc in B. apply app_inj_tail in B as [_ ->].
      apply Forall_app in F' as [F' _]. apply Forall_app in F' as [_ F']. by inversion F'.
  - destruct k as [|y k _] using rev_ind; [by cbn in E2|]. exfalso. subst x. destruct B' as [B'|[b1 B']].
    + subst b'. by destruct b, k.
    + rewrite B' in E1. rewrite app_assoc in E1. apply app_inj_tail in E1 as [_ <-]. apply Forall_app in F as [F _]. apply Forall_app in F as [_ F]. by inversion F.
Qed.
Print Assumptions C87_unique.

(** The location of a rule is that of the bytes of its tokens: from the first one to behind the last one.  An
    empty rule is where the token before it ends. *)
Theorem C87_rule_locations : forall text lens ts s a m b prev, (total lens <= length text)%nat -> Z.of_nat (length text) < 2 ^ 31 - 1 ->
  scan text lstart 0 lens = Some (ts, s) -> lens = a ++ m ++ b ->
  (m = [] -> is_location text (total a) (tend prev)) ->
  let r := yylloc_default prev (take (length m) (drop (length a) ts)) in
  is_location text (total a) (start r) /\ is_location text (total a + total m) (tend r).
Proof.
  intros text lens ts s a m b prev H L E -> Hp. destruct (C87_token_locations text _ H L) as (ts' & s' & E' & Lt & T).
  rewrite E in E'. injection E' as <- <-. clear E.
  destruct m as [|n m].
  { cbn. rewrite Nat.add_0_r. auto. }
  destruct (T a n (m ++ b) eq_refl) as (t & Et & St & _).
  assert (Ed : drop (length a) ts = t :: drop (S (length a)) ts) by (by apply drop_S).
  cbn zeta. cbn [length]. rewrite Ed. cbn [take yylloc_default start tend]. split; [done|].
  assert (exists m' n', n :: m = m' ++ [n']) as (m' & n' & Em).
  { destruct (List.exists_last (l := n :: m)) as (m' & n' & ?); [done|]. eauto. }
  destruct (T (a ++ m') n' b) as (u & Eu & _ & Hu). { change (n :: m ++ b) with ((n :: m) ++ b). by rewrite Em, <- !app_assoc. }
  assert (Tt : forall x y, total (x ++ y) = (total x + total y)%nat).
  { intros x y. induction x as [|k x IH]; [done|]. cbn. fold (total (x ++ y)) (total x). lia. }
  assert (Lu : last (t :: take (length m) (drop (S (length a)) ts)) = Some u).
  { change (t :: take (length m) (drop (S (length a)) ts)) with (take (S (length m)) (t :: drop (S (length a)) ts)). rewrite <- Ed.
    assert (Lm : S (length m) = S (length m')) by (apply (f_equal length) in Em; rewrite app_length in Em; cbn in Em; lia).
    rewrite Lm. rewrite (take_S_r _ _ u); [by rewrite last_snoc|]. rewrite lookup_drop. by rewrite app_length in Eu. }
  assert (G : forall (l : list token_lloc) d t, last (t :: l) = Some (List.last (t :: l) d)).
  { clear. induction l as [|u l IH]; intros d t; [done|]. change (last (t :: u :: l)) with (last (u :: l)). rewrite (IH d). done. }
  rewrite (G _ t) in Lu. assert (List.last (t :: take (length m) (drop (S (length a)) ts)) t = u) as -> by congruence. rewrite Tt in Hu. rewrite Em, Tt. cbn [total foldr]. by rewrite Nat.add_0_r, Nat.add_assoc.
Qed.
Print Assumptions C87_rule_locations.

(** The comparison with a keyword says whether the texts are the same. *)
Theorem C87_keywords : forall str substr, Forall (fun c => c <> 0) str -> Z.of_nat (length str) < 2 ^ 31 -> Z.of_nat (length substr) < 2 ^ 31 ->
  substrcmp str substr = 0 <-> str = substr.
Proof.
  intros str substr F L1 L2. unfold substrcmp. destruct (Z.eqb_spec (Z.of_nat (length str) - Z.of_nat (length substr)) 0) as [E|N].
  - assert (L : length str = length substr) by lia. clear E L1 L2. revert substr L. induction F as [|x str Nx F IH]; intros [|y substr] L; try done.
    cbn. destruct (Z.eqb_spec x y) as [<-|Nxy]; [|split; [lia|congruence]]. destruct (Z.eqb_spec x 0); [done|]. rewrite IH by (cbn in L; lia). split; congruence.
  - split; [|intros ->; lia]. rewrite Z.mod_small by lia. lia.
Qed.
Print Assumptions C87_keywords.

(** Lengths that differ by 4 GiB are taken for equal. *)
Theorem C87_keywords_refuted : exists str, Forall (fun c => c <> 0) str /\ forall substr,
  Z.of_nat (length substr) = Z.of_nat (length str) + 2 ^ 32 -> substrcmp str substr = 0 /\ str <> substr.
Proof.
  exists [114; 101; 102]. split; [by repeat constructor|]. intros substr L. unfold substrcmp. rewrite L.
  split; [|intros <-; lia]. destruct (Z.eqb_spec (Z.of_nat (length [114; 101; 102]) - (Z.of_nat (length [114; 101; 102]) + 2 ^ 32)) 0); [lia|].
  replace (Z.of_nat (length [114; 101; 102]) - (Z.of_nat (length [114; 101; 102]) + 2 ^ 32) + 2 ^ 31) with (2 ^ 31 + (-1) * 2 ^ 32) by lia.
  rewrite Z.mod_add by lia. done.
Qed.
Print Assumptions C87_keywords_refuted.

(** Two lines, three tokens. *)
Example C87_case : let text := [123; 10; 34; 97; 34; 10; 125] in
  (total [2; 4; 1]%nat <= length text)%nat /\
  scan text lstart 0 [2; 4; 1]%nat = Some ([Token (Lloc 1 0 0) (Lloc 2 0 2); Token (Lloc 2 0 2) (Lloc 3 0 6); Token (Lloc 3 0 6) (Lloc 3 1 7)], LS (Some 0%nat) (Lloc 3 1 7)) /\
  substrcmp [114; 101; 102] [114; 101; 102] = 0 /\ substrcmp [114; 101; 102] [114; 101; 103] = -1 /\
  yylloc_default (Token (Lloc 1 0 0) (Lloc 2 0 2)) [Token (Lloc 2 0 2) (Lloc 3 0 6); Token (Lloc 3 0 6) (Lloc 3 1 7)] = Token (Lloc 2 0 2) (Lloc 3 1 7).
Proof. split; [cbn; lia|]. split; [vm_compute; reflexivity|]. done. Qed.
