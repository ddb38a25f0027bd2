(** Proofs about decimal printing and integer parsing. *)
From Verif Require Import Base NumStr.
Local Open Scope Z_scope.

(** ** Specification vocabulary, independent of the model *)

(** The number a character stands for as a digit: 0-9, then letters of either
    case from 10 on. *)
Definition digit_of (c : Z) : option Z :=
  if decide (48 <= c <= 57) then Some (c - 48)
  else if decide (65 <= c <= 90) then Some (c - 55)
  else if decide (97 <= c <= 122) then Some (c - 87)
  else None.

(** [c] is a digit of base [b]. *)
Definition digit_in (b c : Z) : Prop := exists d, digit_of c = Some d /\ d < b.

(** The value of a sequence of digits, most significant first. *)
Definition numeral_value (b : Z) (ds : list Z) : Z :=
  foldl (fun a c => a * b + default 0 (digit_of c)) 0 ds.

(** White space of the C locale. *)
Definition blank (c : Z) : Prop := c ∈ [32; 9; 10; 11; 12; 13].

(** What reading a number from [body] in base [base] must give. *)
Definition number_read (body : list Z) (base v : Z) (e : nat) : Prop :=
  exists blanks sign text, body = blanks ++ sign ++ text /\ Forall blank blanks /\
    (sign = [] \/ sign = [43] \/ sign = [45]) /\
    ((* a number: optional 0x, then the longest run of digits *)
     (exists prefix ds tail b, text = prefix ++ ds ++ tail /\
        (exists c, head text = Some c /\ digit_in 10 c) /\
        (if decide ((base = 0 \/ base = 16) /\ (take 2 text = [48; 120] \/ take 2 text = [48; 88]))
         then length prefix = 2%nat /\ b = 16
         else prefix = [] /\ b = if decide (base = 0) then if decide (head text = Some 48) then 8 else 10 else base) /\
        Forall (digit_in b) ds /\
        (forall c, head tail = Some c -> ~ digit_in b c) /\
        e = length (blanks ++ sign ++ prefix ++ ds) /\
        v = (if decide (sign = [45]) then - numeral_value b ds else numeral_value b ds) mod 2 ^ 128)
     \/
     (* not a number: nothing is consumed *)
     ((forall c, head text = Some c -> ~ digit_in 10 c) /\
      (sign = [] -> forall c, head text = Some c -> ~ blank c /\ c <> 43 /\ c <> 45) /\
      e = 0%nat /\ v = 0)).

(** ** Scanning *)

Lemma isspace_blank c : isspace c = true <-> blank c.
Proof. unfold isspace, blank. rewrite !elem_of_cons, elem_of_nil. split; intros; lia. Qed.

Lemma isdigit_in c : isdigit c = true <-> digit_in 10 c.
Proof.
  unfold isdigit, digit_in, digit_of. split.
  - intros H. exists (c - 48). rewrite decide_True by lia. split; [done|lia].
  - intros (d & E & L). repeat case_decide; simplify_eq; lia.
Qed.

Global Instance digit_in_dec b c : Decision (digit_in b c).
Proof.
  unfold digit_in. destruct (digit_of c) as [d|] eqn:E.
  - destruct (decide (d < b)); [left; eauto|right; intros (d' & ? & ?); simplify_eq; lia].
  - right. by intros (d' & ? & ?).
Defined.

Lemma span (P : Z -> Prop) `{!forall c, Decision (P c)} (l : list Z) :
  exists a b, l = a ++ b /\ Forall P a /\ forall c, head b = Some c -> ~ P c.
Proof.
  induction l as [|c l (a & b & -> & Ha & Hb)].
  - exists [], []. by repeat split.
  - destruct (decide (P c)).
    + exists (c :: a), b. by repeat split; [constructor|].
    + exists [], (c :: a ++ b). repeat split; [constructor|]. cbn. by intros ? [= <-].
Qed.

Lemma rd_mid {A} (pre : list A) c r : rd (pre ++ c :: r) (length pre) = Some c.
Proof. by apply list_lookup_middle. Qed.

Lemma skip_space_ok bl : forall pre c r f, Forall blank bl -> ~ blank c -> (length bl < f)%nat ->
  skip_space f (pre ++ bl ++ c :: r) (length pre) = Some (length pre + length bl)%nat.
Proof.
  induction bl as [|x bl IH]; intros pre c r f Hb Hc Hf; (destruct f; [lia|]); cbn [skip_space app].
  - rewrite rd_mid. cbn [mbind option_bind]. destruct (isspace c) eqn:E; [by apply isspace_blank in E|].
    cbn [length]. f_equal. lia.
  - rewrite rd_mid. cbn [mbind option_bind]. apply Forall_cons in Hb as [Hx Hb].
    apply isspace_blank in Hx. rewrite Hx. cbn [length] in *.
    specialize (IH (pre ++ [x]) c r f Hb Hc ltac:(lia)). rewrite <- app_assoc in IH. cbn [app] in IH.
    rewrite app_length in IH. cbn [length] in IH. rewrite (Nat.add_comm (length pre) 1) in IH. cbn [Nat.add] in IH.
    rewrite IH. f_equal. lia.
Qed.


Lemma acc_loop_ok ds : forall pre c r f b A, Forall (digit_in b) ds -> ~ digit_in b c -> (length ds < f)%nat ->
  acc_loop f (pre ++ ds ++ c :: r) (length pre) b (A mod 2 ^ 128) =
    Some (foldl (fun a c => a * b + default 0 (digit_of c)) A ds mod 2 ^ 128, (length pre + length ds)%nat).
Proof.
  induction ds as [|x ds IH]; intros pre c r f b A Hd Hc Hf; (destruct f; [lia|]); cbn [acc_loop app foldl].
  - rewrite rd_mid. cbn [mbind option_bind length]. rewrite Nat.add_0_r.
    destruct (isdigit c || isalpha c) eqn:E; [|done].
    assert (X : digit_of c = Some (if isdigit c then c - 48 else if isupper c then c - (65 - 10) else c - (97 - 10))).
    { unfold digit_of, isdigit, isalpha, isupper, islower in *.
      destruct (decide (48 <= c <= 57)) as [?|?]; [replace ((48 <=? c) && (c <=? 57)) with true by lia; done|].
      replace ((48 <=? c) && (c <=? 57)) with false in * by lia.
      destruct (decide (65 <= c <= 90)); [replace ((65 <=? c) && (c <=? 90)) with true by lia; f_equal; lia|].
      replace ((65 <=? c) && (c <=? 90)) with false in * by lia.
      rewrite decide_True by lia. by f_equal. }
    destruct (Z.leb_spec b (if isdigit c then c - 48 else if isupper c then c - (65 - 10) else c - (97 - 10))) as [L|L]; [done|].
    destruct Hc. by eexists.
  - rewrite rd_mid. cbn [mbind option_bind]. apply Forall_cons in Hd as [(d & Ed & Ld) Hd].
    assert (X : isdigit x || isalpha x = true /\ (if isdigit x then x - 48 else if isupper x then x - (65 - 10) else x - (97 - 10)) = d).
    { unfold digit_of, isdigit, isalpha, isupper, islower in *.
      destruct (decide (48 <= x <= 57)) as [?|?]; [replace ((48 <=? x) && (x <=? 57)) with true by lia; simplify_eq; done|].
      replace ((48 <=? x) && (x <=? 57)) with false in * by lia.
      destruct (decide (65 <= x <= 90)); [replace ((65 <=? x) && (x <=? 90)) with true by lia; simplify_eq; split; [done|lia]|].
      replace ((65 <=? x) && (x <=? 90)) with false in * by lia.
      destruct (decide _); [|done]. simplify_eq. split; lia. }
    destruct X as [-> ->]. destruct (Z.leb_spec b d) as [L|L]; [lia|].
    rewrite Ed. cbn [default length] in *.
    specialize (IH (pre ++ [x]) c r f b (A * b + d) Hd Hc ltac:(lia)).
    rewrite <- app_assoc in IH. cbn [app] in IH.
    rewrite app_length in IH. cbn [length] in IH. rewrite (Nat.add_comm (length pre) 1) in IH. cbn [Nat.add] in IH.
    replace ((A mod 2 ^ 128 * b + d) mod 2 ^ 128) with ((A * b + d) mod 2 ^ 128).
    2:{ rewrite <- (Z.add_mod_idemp_l (A * b)) by lia. rewrite <- (Z.add_mod_idemp_l (A mod 2 ^ 128 * b)) by lia.
        by rewrite Z.mul_mod_idemp_l by lia. }
    rewrite IH. unfold id. f_equal. f_equal. lia.
Qed.

(** ** The parser *)

Lemma tail_cons (tail rest : list Z) : exists c r, tail ++ 0 :: rest = c :: r /\
  ((exists t, tail = c :: t) \/ (tail = [] /\ c = 0)).
Proof. destruct tail as [|c t]; cbn; [exists 0, rest|exists c, (t ++ 0 :: rest)]; split; eauto. Qed.

Lemma not_digit_0 b : ~ digit_in b 0.
Proof. intros (d & E & _). by vm_compute in E. Qed.
Lemma not_blank_0 : ~ blank 0.
Proof. unfold blank. rewrite !elem_of_cons, elem_of_nil. lia. Qed.
Lemma digit_not_blank c : digit_in 10 c -> ~ blank c /\ c <> 43 /\ c <> 45.
Proof.
  intros D. apply isdigit_in in D. unfold isdigit in D. unfold blank. rewrite !elem_of_cons, elem_of_nil.
  split_and!; intros; lia.
Qed.
Lemma sign_not_blank c : c = 43 \/ c = 45 -> ~ blank c.
Proof. unfold blank. rewrite !elem_of_cons, elem_of_nil. lia. Qed.
Global Instance blank_dec c : Decision (blank c).
Proof. unfold blank. apply _. Defined.

(** The part of mr_strtouintmax after the blanks and the sign. *)
Lemma number_ok pre ds tail rest base b prefix c0 :
  (exists c, head (prefix ++ ds ++ tail) = Some c /\ digit_in 10 c) ->
  (if decide ((base = 0 \/ base = 16) /\
        (take 2 (prefix ++ ds ++ tail) = [48; 120] \/ take 2 (prefix ++ ds ++ tail) = [48; 88]))
   then length prefix = 2%nat /\ b = 16
   else prefix = [] /\ b = if decide (base = 0) then if decide (head (prefix ++ ds ++ tail) = Some 48) then 8 else 10 else base) ->
  Forall (digit_in b) ds -> (forall c, head tail = Some c -> ~ digit_in b c) ->
  let str := pre ++ prefix ++ ds ++ tail ++ 0 :: rest in
  let s := length pre in
  (c ← rd str s;
   if negb (isdigit c) then Some (0, 0%nat)
   else
    hex ← (if ((base =? 0) || (base =? 16)) && (c =? 48)
           then c1 ← rd str (S s); Some ((c1 =? 120) || (c1 =? 88))
           else Some false);
    let s := if (hex : bool) then S (S s) else s in
    let base := if hex then 16 else base in
    base ← (if base =? 0 then c ← rd str s; Some (if c =? 48 then 8 else 10) else Some base);
    r ← acc_loop (S (length str)) str s base 0;
    Some (if c0 =? 45 then (- r.1) mod 2 ^ 128 else r.1, r.2)) =
  Some ((if c0 =? 45 then - numeral_value b ds else numeral_value b ds) mod 2 ^ 128,
        (length pre + length prefix + length ds)%nat).
Proof.
  intros (c & Hc & Dc) Hb Hds Htl str s.
  destruct (tail_cons tail rest) as (tc & tr & Etl & Ctl).
  assert (Ntc : ~ digit_in b tc).
  { destruct Ctl as [[t ->]|[-> ->]]; [by apply Htl|apply not_digit_0]. }
  assert (Acc : acc_loop (S (length str)) str (length (pre ++ prefix)) b 0 =
    Some (numeral_value b ds mod 2 ^ 128, (length (pre ++ prefix) + length ds)%nat)).
  { change 0 with (0 mod 2 ^ 128) at 1. subst str. rewrite (app_assoc pre), Etl. apply acc_loop_ok; [done|done|].
    rewrite !app_length. lia. }
  assert (Fin : Some (if c0 =? 45 then (- (numeral_value b ds mod 2 ^ 128)) mod 2 ^ 128 else numeral_value b ds mod 2 ^ 128,
       (length (pre ++ prefix) + length ds)%nat) =
     Some ((if c0 =? 45 then - numeral_value b ds else numeral_value b ds) mod 2 ^ 128,
        (length pre + length prefix + length ds)%nat)).
  { rewrite app_length. destruct (c0 =? 45); [|done]. f_equal. f_equal.
    rewrite <- (Z.sub_0_l (numeral_value b ds)), <- (Z.sub_0_l (_ mod _)). by rewrite Zminus_mod_idemp_r. }
  assert (E0 : exists q, prefix ++ ds ++ tail ++ 0 :: rest = c :: q /\ prefix ++ ds ++ tail = c :: take (length (prefix ++ ds ++ tail) - 1) q).
  { replace (prefix ++ ds ++ tail ++ 0 :: rest) with ((prefix ++ ds ++ tail) ++ 0 :: rest) by by rewrite <- !app_assoc.
    destruct (prefix ++ ds ++ tail) as [|x q]; [done|]. cbn in Hc. simplify_eq. exists (q ++ 0 :: rest).
    split; [done|]. cbn [length]. replace (S (length q) - 1)%nat with (length q) by lia. by rewrite take_app. }
  destruct E0 as (q & E0 & E0').
  assert (Rc : rd str s = Some c). { subst str s. rewrite E0. apply rd_mid. }
  rewrite Rc. cbn [mbind option_bind].
  pose proof (proj2 (isdigit_in c) Dc) as Hd. rewrite Hd. cbn [negb].
  (* the character after the first one *)
  assert (R1 : exists c1, rd str (S s) = Some c1 /\
     ((exists q', prefix ++ ds ++ tail = c :: c1 :: q') \/ (prefix ++ ds ++ tail = [c] /\ c1 = 0))).
  { subst str s. replace (pre ++ prefix ++ ds ++ tail ++ 0 :: rest) with (pre ++ ((prefix ++ ds ++ tail) ++ 0 :: rest)) by by rewrite <- !app_assoc.
    destruct (prefix ++ ds ++ tail) as [|x [|y q2]]; [done| |]; cbn in Hc; simplify_eq.
    - exists 0. split; [|by right]. unfold rd. rewrite lookup_app_r by lia.
      replace (S (length pre) - length pre)%nat with 1%nat by lia. done.
    - exists y. split; [|left; eauto]. unfold rd. rewrite lookup_app_r by lia.
      replace (S (length pre) - length pre)%nat with 1%nat by lia. done. }
  destruct R1 as (c1 & R1 & E1). rewrite R1. cbn [mbind option_bind].
  case_decide as HX.
  - destruct HX as [Hbase HX]. destruct Hb as [Lp ->].
    assert (c = 48 /\ (c1 = 120 \/ c1 = 88)) as [-> Hc1].
    { destruct E1 as [[q' E1]|[E1 ->]]; rewrite E1 in HX; cbn in HX; [|naive_solver].
      naive_solver. }
    replace (((base =? 0) || (base =? 16)) && (48 =? 48)) with true by (destruct Hbase; subst; done).
    cbn [mbind option_bind]. replace ((c1 =? 120) || (c1 =? 88)) with true by lia.
    cbv zeta. change (16 =? 0) with false. cbn [mbind option_bind].
    replace (S (S s)) with (length (pre ++ prefix)) by (rewrite app_length; subst s; lia).
    rewrite Acc. cbn [mbind option_bind fst snd]. exact Fin.
  - destruct Hb as [-> Eb]. cbn [app] in *.
    assert (Hx : (if ((base =? 0) || (base =? 16)) && (c =? 48) then Some ((c1 =? 120) || (c1 =? 88)) else Some false) = Some false).
    { destruct (((base =? 0) || (base =? 16)) && (c =? 48)) eqn:X; [|done].
      destruct ((c1 =? 120) || (c1 =? 88)) eqn:Y; [|done]. exfalso. apply HX. split; [lia|].
      destruct E1 as [[q' E1]|[E1 ->]]; [|lia]. rewrite E1. cbn.
      assert (c = 48) as -> by lia. assert (c1 = 120 \/ c1 = 88) as [-> | ->] by lia; auto. }
    rewrite Hx. cbn [mbind option_bind]. cbv zeta.
    rewrite app_nil_r in Acc, Fin. fold s in Acc.
    assert (Hbb : (if base =? 0 then mbind (fun c => Some (if c =? 48 then 8 else 10)) (rd str s) else Some base) = Some b).
    { rewrite Rc. cbn [mbind option_bind]. rewrite Eb, Hc. destruct (Z.eqb_spec base 0).
      - rewrite (decide_True (P:=base = 0)) by done. f_equal. destruct (Z.eqb_spec c 48).
        + subst. by rewrite decide_True.
        + rewrite decide_False; [done|]. by intros [= ?].
      - by rewrite (decide_False (P:=base=0)). }
    rewrite Hbb. cbn [mbind option_bind]. rewrite Acc. cbn [mbind option_bind fst snd].
    rewrite <- Fin. subst s. done.
Qed.

Lemma strtouintmax_ok body rest base :
  exists v e, strtouintmax (body ++ 0 :: rest) base = Some (v, e) /\ number_read body base v e.
Proof.
  destruct (span blank body) as (bl & b1 & -> & Hbl & Hb1).
  assert (Hskip : forall c r, b1 ++ 0 :: rest = c :: r ->
     skip_space (S (length ((bl ++ b1) ++ 0 :: rest))) ((bl ++ b1) ++ 0 :: rest) 0 = Some (length bl) /\ rd ((bl ++ b1) ++ 0 :: rest) (length bl) = Some c).
  { intros c r E. rewrite <- app_assoc, E. split; [|apply rd_mid].
    rewrite <- (app_nil_l (bl ++ c :: r)) at 2. change 0%nat with (length (@nil Z)).
    rewrite skip_space_ok; [done|done| |].
    - destruct b1; cbn in E; simplify_eq; [apply not_blank_0|by apply Hb1].
    - rewrite app_length. lia. }
  destruct (tail_cons b1 rest) as (c & r & E & Cc).
  destruct (Hskip c r E) as [S1 S2]. unfold strtouintmax. rewrite S1. cbn [mbind option_bind]. rewrite S2.
  cbn [mbind option_bind].
  (* split off the sign *)
  assert (HS : exists sign text, b1 = sign ++ text /\ (sign = [] \/ sign = [43] \/ sign = [45]) /\
      (if (c =? 43) || (c =? 45) then S (length bl) else length bl) = length (bl ++ sign) /\
      (sign = [] -> c <> 43 /\ c <> 45) /\ (sign = [45] <-> c = 45)).
  { destruct Cc as [[t ->]|[-> ->]].
    - destruct (Z.eqb_spec c 43) as [->|]; [|destruct (Z.eqb_spec c 45) as [->|]].
      + exists [43], t. rewrite app_length. cbn. split_and!; [done|auto|lia|done|naive_solver].
      + exists [45], t. rewrite app_length. cbn. split_and!; [done|auto|lia|done|naive_solver].
      + exists [], (c :: t). rewrite app_nil_r. cbn. split_and!; [done|auto|lia|done|naive_solver].
    - exists [], []. rewrite (app_nil_r bl). cbn. split_and!; [done|auto|lia|done|naive_solver]. }
  destruct HS as (sign & text & -> & Hsg & -> & Hsg0 & Hneg).
  assert (Hng : (c =? 45) = bool_decide (sign = [45])).
  { destruct (Z.eqb_spec c 45); [rewrite bool_decide_eq_true_2 by tauto; done|rewrite bool_decide_eq_false_2 by tauto; done]. }
  destruct (tail_cons text rest) as (d & r2 & E2 & Cd).
  assert (Rd : rd ((bl ++ sign ++ text) ++ 0 :: rest) (length (bl ++ sign)) = Some d).
  { rewrite <- !app_assoc, E2, (app_assoc bl). apply rd_mid. }
  destruct (decide (digit_in 10 d)) as [Dd|Nd].
  2:{ rewrite Rd. cbn [mbind option_bind]. destruct (isdigit d) eqn:X; [by apply isdigit_in in X|]. cbn [negb].
      exists 0, 0%nat. split; [done|]. exists bl, sign, text. split_and!; [done|done|done|].
      right. assert (Hh : forall c, head text = Some c -> c = d).
      { destruct Cd as [[t ->]|[-> ->]]; cbn; [by intros ? [= ->]|done]. }
      split_and!; [|intros Hs c' Hc'|done|done].
      - intros c' Hc'. apply Hh in Hc'. by subst.
      - subst sign. cbn [app] in *. destruct (Hsg0 eq_refl).
        destruct Cc as [[t ->]|[-> ->]]; cbn in Hc'; [|done]. simplify_eq. split; [by apply Hb1|done]. }
  assert (Ht : exists t, text = d :: t).
  { destruct Cd as [[t ->]|[-> ->]]; [eauto|]. by apply not_digit_0 in Dd. }
  (* the prefix and the digits *)
  set (X := decide ((base = 0 \/ base = 16) /\ (take 2 text = [48; 120] \/ take 2 text = [48; 88]))).
  set (pl := if X then 2%nat else 0%nat).
  set (b := if X then 16 else if decide (base = 0) then if decide (head text = Some 48) then 8 else 10 else base).
  destruct (span (digit_in b) (drop pl text)) as (ds & tail & Eds & Hds & Htl).
  assert (Et : text = take pl text ++ ds ++ tail) by by rewrite <- Eds, take_drop.
  assert (Hpre : if decide ((base = 0 \/ base = 16) /\ (take 2 text = [48; 120] \/ take 2 text = [48; 88]))
     then length (take pl text) = 2%nat /\ b = 16
     else take pl text = [] /\ b = if decide (base = 0) then if decide (head text = Some 48) then 8 else 10 else base).
  { fold X. subst pl b. destruct X as [[? HT]|?]; [|by split].
    split; [|done]. by destruct HT as [-> | ->]. }
  assert (Hhd : exists c, head text = Some c /\ digit_in 10 c) by (destruct Ht as [t ->]; eauto).
  pose proof (number_ok (bl ++ sign) ds tail rest base b (take pl text) c) as HN.
  rewrite <- Et in HN. specialize (HN Hhd Hpre Hds Htl). cbv zeta in HN.
  assert (Estr : (bl ++ sign ++ text) ++ 0 :: rest = (bl ++ sign) ++ take pl text ++ ds ++ tail ++ 0 :: rest).
  { rewrite Et at 1. by rewrite <- !app_assoc. }
  rewrite Estr. cbv zeta. rewrite HN.
  eexists _, _. split; [reflexivity|]. exists bl, sign, text. split_and!; [done|done|done|]. left.
  exists (take pl text), ds, tail, b. split_and!; try done.
  - rewrite !app_length. lia.
  - rewrite Hng. by destruct (decide (sign = [45])); [rewrite bool_decide_eq_true_2|rewrite bool_decide_eq_false_2].
Qed.

(** ** Printing *)

(** Canonical decimal text of a natural number. *)
Definition decimal_text (ds : list Z) (v : Z) : Prop :=
  ds <> [] /\ Forall (digit_in 10) ds /\ numeral_value 10 ds = v /\ (head ds = Some 48 -> ds = [48]).

Lemma push_down_ok buf out c : (0 < out <= length buf)%nat ->
  exists buf', push_down buf out c = Some (buf', (out - 1)%nat) /\ length buf' = length buf /\
    drop (out - 1) buf' = c :: drop out buf.
Proof.
  intros H. destruct out as [|o]; [lia|]. unfold push_down. rewrite wr_Some by lia. cbn [mbind option_bind].
  replace (S o - 1)%nat with o by lia. eexists. split; [done|]. split; [by rewrite insert_length|].
  rewrite (drop_S _ c o); [|by apply list_lookup_insert; lia]. f_equal. rewrite drop_insert_gt by lia. done.
Qed.

Lemma numeral_app b a c : numeral_value b (a ++ [c]) = numeral_value b a * b + default 0 (digit_of c).
Proof. unfold numeral_value. by rewrite foldl_app. Qed.

Lemma digit_char d : 0 <= d < 10 -> digit_of (48 + d) = Some d /\ digit_in 10 (48 + d).
Proof.
  intros H. assert (digit_of (48 + d) = Some d). { unfold digit_of. rewrite decide_True by lia. f_equal. lia. }
  split; [done|]. exists d. split; [done|lia].
Qed.

Lemma numeral_nonneg ds : Forall (digit_in 10) ds -> 0 <= numeral_value 10 ds.
Proof.
  induction ds as [|c ds IH] using rev_ind; intros H; [done|]. apply Forall_app in H as [H1 H2].
  rewrite numeral_app. specialize (IH H1). apply Forall_singleton in H2 as (d & E & L).
  rewrite E. cbn [default]. unfold id. cut (0 <= d); [lia|]. unfold digit_of in E. repeat case_decide; simplify_eq; lia.
Qed.

Lemma digits_loop_ok k : forall fuel buf out v, 0 <= v < 10 ^ Z.of_nat k -> (0 < k)%nat -> (k <= out <= length buf)%nat -> (k <= fuel)%nat ->
  exists buf' ds, digits_loop fuel buf out v = Some (buf', (out - length ds)%nat) /\ length buf' = length buf /\
    drop (out - length ds) buf' = ds ++ drop out buf /\ (length ds <= k)%nat /\ decimal_text ds v.
Proof.
  induction k as [|k IH]; intros fuel buf out v Hv Hk Ho Hf; [lia|].
  destruct fuel as [|fuel]; [lia|]. cbn [digits_loop].
  assert (Hm : 0 <= v mod 10 < 10) by (apply Z.mod_pos_bound; lia).
  destruct (digit_char _ Hm) as [Dv Di].
  destruct (push_down_ok buf out (48 + v mod 10) ltac:(lia)) as (buf1 & E1 & L1 & D1).
  rewrite E1. cbn [mbind option_bind fst snd].
  pose proof (Z.div_mod v 10 ltac:(lia)) as DM.
  destruct (Z.eqb_spec (v / 10) 0) as [Z0|Z0].
  - exists buf1, [48 + v mod 10]. cbn [length]. split; [done|]. split; [done|]. split; [done|]. split; [lia|].
    repeat split; [done|by constructor| |by intros [= ->]].
    unfold numeral_value. cbn. rewrite Dv. cbn. unfold id. lia.
  - assert (0 < v / 10). { pose proof (Z.div_pos v 10 ltac:(lia) ltac:(lia)). lia. }
    assert (v / 10 < 10 ^ Z.of_nat k).
    { apply Z.div_lt_upper_bound; [lia|]. rewrite Nat2Z.inj_succ, Z.pow_succ_r in Hv by lia. lia. }
    destruct k as [|k']; [cbn in *; lia|].
    destruct (IH fuel buf1 (out - 1)%nat (v / 10) ltac:(lia) ltac:(lia) ltac:(lia) ltac:(lia)) as (buf' & ds & E & L & D & Lk & N1 & N2 & N3 & N4).
    rewrite E. exists buf', (ds ++ [48 + v mod 10]). rewrite app_length. cbn [length].
    replace (out - (length ds + 1))%nat with (out - 1 - length ds)%nat by lia.
    split; [done|]. split; [lia|]. split; [rewrite D, D1, <- app_assoc; done|]. split; [lia|].
    repeat split.
    + by destruct ds.
    + apply Forall_app. split; [done|by constructor].
    + rewrite numeral_app, N3, Dv. cbn [default]. unfold id. lia.
    + destruct ds as [|c ds]; [done|]. cbn. intros Hh. specialize (N4 Hh). injection N4 as -> ->.
      assert (0 = v / 10) by (rewrite <- N3; by vm_compute). lia.
Qed.

Lemma uintmaxtostr_ok buf v : 0 <= v < 2 ^ 128 -> (40 <= length buf)%nat ->
  exists buf' ds, uintmaxtostr buf (length buf) v = Some (buf', (length buf - 1 - length ds)%nat) /\ length buf' = length buf /\
    drop (length buf - 1 - length ds) buf' = ds ++ [0] /\ (length ds <= 39)%nat /\ decimal_text ds v.
Proof.
  intros Hv Hl. unfold uintmaxtostr.
  destruct (push_down_ok buf (length buf) 0 ltac:(lia)) as (b1 & E1 & L1 & D1). rewrite E1. cbn [mbind option_bind fst snd].
  destruct (digits_loop_ok 39 (S (length buf)) b1 (length buf - 1)%nat v) as (b2 & ds & E & L & D & Lk & T).
  - split; [lia|]. eapply Z.lt_le_trans; [apply Hv|]. vm_compute. done.
  - lia.
  - lia.
  - lia.
  - exists b2, ds. rewrite E. split; [done|]. split; [lia|]. split; [|done].
    rewrite D, D1. by rewrite drop_ge by lia.
Qed.

Lemma print_uint128_ok buf v : length buf = print_buffer -> 0 <= v < 2 ^ 128 ->
  exists ds, print_uint128 buf v = Some (ds ++ [0]) /\ (length ds <= 39)%nat /\ decimal_text ds v.
Proof.
  intros Hl Hv. change print_buffer with 41%nat in Hl.
  destruct (uintmaxtostr_ok buf v Hv ltac:(lia)) as (b & ds & E & L & D & Lk & T).
  exists ds. unfold print_uint128. rewrite E. cbn [mbind option_bind fst snd]. by rewrite D.
Qed.

Lemma print_int128_ok wrapv buf v : length buf = print_buffer -> - 2 ^ 127 <= v < 2 ^ 127 ->
  wrapv = true \/ - 2 ^ 127 < v ->
  exists ds, print_int128 wrapv buf v = Some ((if decide (v < 0) then [45] else []) ++ ds ++ [0]) /\
    (length ds <= 39)%nat /\ decimal_text ds (Z.abs v).
Proof.
  intros Hl Hv Hw. change print_buffer with 41%nat in Hl. unfold print_int128.
  destruct (Z.ltb_spec v 0) as [N|N].
  - rewrite decide_True by lia.
    assert (En : negate_int128 wrapv v = Some (Z.abs v)).
    { unfold negate_int128. cbv zeta. pose proof (Z.add_lnot_diag v).
      replace ((2 ^ 127 <=? Z.lnot v + 1) && negb wrapv) with false by (destruct Hw as [->|]; lia).
      f_equal. rewrite Z.mod_small by lia. lia. }
    rewrite En. cbn [mbind option_bind].
    destruct (uintmaxtostr_ok buf (Z.abs v) ltac:(lia) ltac:(lia)) as (b & ds & E & L & D & Lk & T).
    rewrite E. cbn [mbind option_bind fst snd].
    destruct (push_down_ok b (length buf - 1 - length ds) 45 ltac:(lia)) as (b1 & E1 & L1 & D1). rewrite E1.
    cbn [mbind option_bind fst snd]. rewrite D1, D. by exists ds.
  - rewrite decide_False by lia. cbn [mbind option_bind].
    destruct (uintmaxtostr_ok buf v ltac:(lia) ltac:(lia)) as (b & ds & E & L & D & Lk & T).
    rewrite E. cbn [mbind option_bind fst snd]. rewrite D. rewrite Z.abs_eq by lia. by exists ds.
Qed.

(** ** Round trip *)

Lemma parse_decimal (neg : bool) ds v rest base : decimal_text ds v -> base = 0 \/ base = 10 ->
  strtouintmax ((if neg then [45] else []) ++ ds ++ 0 :: rest) base =
    Some ((if neg then - v else v) mod 2 ^ 128, length ((if neg then [45] else []) ++ ds)).
Proof.
  intros (N1 & N2 & N3 & N4) Hb.
  destruct (strtouintmax_ok ((if neg then [45] else []) ++ ds) rest base) as (w & e & E & R).
  rewrite <- app_assoc in E. rewrite E. f_equal.
  destruct ds as [|c ds']; [done|]. apply Forall_cons in N2 as X. destruct X as [Dc Dds].
  pose proof (digit_not_blank c Dc) as (NB & ? & ?).
  destruct R as (bl & sg & text & Eb & Hbl & Hsg & R).
  assert (bl = [] /\ sg = (if neg then [45] else []) /\ text = c :: ds') as (-> & -> & ->).
  { destruct bl as [|x bl].
    - split; [done|]. cbn [app] in Eb. destruct neg; cbn [app] in Eb.
      + destruct Hsg as [-> |[-> | ->]]; cbn [app] in Eb; simplify_eq; [|done].
        exfalso. destruct R as [(p & d & t & b & E1 & (c' & E2 & E3) & _)|(R1 & R2 & _)].
        * simplify_eq. cbn in E2. simplify_eq. by apply digit_not_blank in E3 as (_ & _ & ?).
        * destruct (R2 eq_refl 45 eq_refl) as (_ & _ & ?). done.
      + destruct Hsg as [-> |[-> | ->]]; cbn [app] in Eb; simplify_eq; done.
    - exfalso. apply Forall_cons in Hbl as [Hx _]. destruct neg; cbn [app] in Eb; injection Eb as Ex _.
      + subst x. by apply (sign_not_blank 45); [right|].
      + by subst x. }
  destruct R as [(p & d & t & b & E1 & _ & Hp & Hd & Ht & -> & ->)|(R1 & _)]; [|by destruct (R1 c)].
  rewrite decide_False in Hp.
  2:{ intros [_ HT]. assert (exists c1 q, c :: ds' = 48 :: c1 :: q /\ (c1 = 120 \/ c1 = 88)) as (c1 & q & Ecq & Hc1).
      { destruct ds' as [|c1 q]; cbn in HT; [by destruct HT|]. exists c1, q.
        destruct HT as [HT|HT]; injection HT as -> ->; auto. }
      injection Ecq as -> ->. by specialize (N4 eq_refl). }
  destruct Hp as [-> ->]. cbn [app] in E1.
  assert (Eb2 : t = [] /\ d = c :: ds' /\ numeral_value (if decide (base = 0) then if decide (head (c :: ds') = Some 48) then 8 else 10 else base) d = v).
  { destruct (decide (base = 0)) as [B0|B0].
    - destruct (decide (head (c :: ds') = Some 48)) as [H48|H48].
      + specialize (N4 H48). injection N4 as -> ->. cbn in N3.
        destruct d as [|x d].
        * destruct t as [|y t]; [done|]. injection E1 as <- <-. destruct (Ht 48 eq_refl). exists 0. split; [done|lia].
        * cbn in E1. injection E1 as <- E1. symmetry in E1. apply app_nil in E1 as [-> ->]. split_and!; try done.
      + destruct t as [|y t]; [rewrite app_nil_r in E1; by subst|]. exfalso. rewrite E1 in N2. apply Forall_app in N2 as [_ N2].
        apply Forall_cons in N2 as [N2 _]. by apply (Ht y).
    - destruct Hb as [?|Hb]; [done|]. rewrite Hb in *.
      destruct t as [|y t]; [rewrite app_nil_r in E1; by subst|]. exfalso. rewrite E1 in N2. apply Forall_app in N2 as [_ N2].
      apply Forall_cons in N2 as [N2 _]. by apply (Ht y). }
  destruct Eb2 as (-> & -> & ->).
  f_equal. by destruct neg.
Qed.

Lemma print_parse_uint128 buf v base : length buf = print_buffer -> 0 <= v < 2 ^ 128 -> base = 0 \/ base = 10 ->
  exists txt, print_uint128 buf v = Some (txt ++ [0]) /\ strtouintmax (txt ++ [0]) base = Some (v, length txt).
Proof.
  intros Hl Hv Hb. destruct (print_uint128_ok buf v Hl Hv) as (ds & E & L & T).
  exists ds. split; [done|]. pose proof (parse_decimal false ds v [] base T Hb) as P. cbn [app] in P.
  rewrite P. f_equal. f_equal. by apply Z.mod_small.
Qed.

Lemma print_parse_int128 wrapv buf v base : length buf = print_buffer -> - 2 ^ 127 <= v < 2 ^ 127 ->
  wrapv = true \/ - 2 ^ 127 < v -> base = 0 \/ base = 10 ->
  exists txt, print_int128 wrapv buf v = Some (txt ++ [0]) /\
    strtouintmax (txt ++ [0]) base = Some (v mod 2 ^ 128, length txt).
Proof.
  intros Hl Hv Hw Hb. destruct (print_int128_ok wrapv buf v Hl Hv Hw) as (ds & E & L & T).
  exists ((if decide (v < 0) then [45] else []) ++ ds). rewrite <- app_assoc. split; [done|].
  pose proof (parse_decimal (bool_decide (v < 0)) ds (Z.abs v) [] base T Hb) as P.
  destruct (decide (v < 0)).
  - rewrite bool_decide_eq_true_2 in P by done. rewrite P. f_equal. f_equal. f_equal. lia.
  - rewrite bool_decide_eq_false_2 in P by done. rewrite P. f_equal. f_equal. f_equal. lia.
Qed.

Lemma strtouintmax_progress body rest base v e :
  base = 0 \/ base = 10 \/ base = 16 ->
  strtouintmax (body ++ 0 :: rest) base = Some (v, e) ->
  (e = 0%nat /\ v = 0) \/ (exists c, body !! (e - 1)%nat = Some c /\ c <> 43 /\ c <> 45 /\ ~ blank c /\ (0 < e)%nat).
Proof.
  intros Hb E. destruct (strtouintmax_ok body rest base) as (v' & e' & E' & R). rewrite E in E'. injection E' as <- <-.
  destruct R as (bl & sg & text & -> & _ & _ & [(p & d & t & b & -> & (c & Hc & Dc) & Hp & Hd & Ht & -> & _)|(_ & _ & -> & ->)]); [right|by left].
  assert (Hl : forall x y c, (bl ++ sg ++ x ++ [c] ++ y) !! (length (bl ++ sg ++ x ++ [c]) - 1)%nat = Some c).
  { intros x y z. replace (bl ++ sg ++ x ++ [z] ++ y) with ((bl ++ sg ++ x) ++ z :: y) by by rewrite <- !app_assoc.
    apply list_lookup_middle. rewrite !app_length. cbn. lia. }
  assert (Hdig : forall b x, digit_in b x -> x <> 43 /\ x <> 45 /\ ~ blank x).
  { intros b' x (q & Q & _). unfold digit_of in Q. unfold blank. rewrite !elem_of_cons, elem_of_nil.
    assert (48 <= x <= 57 \/ 65 <= x <= 90 \/ 97 <= x <= 122) by (repeat case_decide; simplify_eq; lia).
    split_and!; lia. }
  destruct d as [|z d' _] using rev_ind.
  - (* no digits: the prefix is there *)
    case_decide as HX.
    + destruct Hp as [Lp ->]. destruct p as [|p1 [|p2 [|? ?]]]; try done. cbn [app take] in HX.
      exists p2. specialize (Hl [p1] t p2). cbn [app] in *. split; [exact Hl|].
      destruct HX as [_ [HX|HX]]; injection HX as -> ->; (split_and!; [done|done| |rewrite !app_length; cbn; lia]);
        unfold blank; rewrite !elem_of_cons, elem_of_nil; lia.
    + exfalso. destruct Hp as [-> Eb]. cbn [app] in *. apply (Ht c Hc). rewrite Eb.
      destruct Hb as [-> | [-> | ->]]; [rewrite (decide_True (P:=0 = 0)) by done|done|].
      * destruct (decide (head t = Some 48)) as [H48|H48]; [|done]. rewrite Hc in H48. simplify_eq.
        exists 0. split; [done|lia].
      * destruct Dc as (q & ? & ?). exists q. rewrite decide_False by done. split; [done|lia].
  - exists z. specialize (Hl (p ++ d') t z). rewrite <- !app_assoc in *. cbn [app] in *. split; [exact Hl|].
    apply Forall_app in Hd as [_ Hd]. apply Forall_cons in Hd as [Hd _]. destruct (Hdig _ _ Hd) as (? & ? & ?).
    split_and!; [done|done|done|]. rewrite !app_length. cbn. lia.
Qed.
