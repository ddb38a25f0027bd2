(** Proofs about RArray.v. *)
From Verif Require Import Base RArray.
Local Open Scope Z_scope.

(** Reachable arrays: the block has the recorded size, [content] is the used part. *)
Definition ra_ok (r : rarray) (content : list Z) : Prop :=
  rsize r = Z.of_nat (length content) /\ rsize r <= asize r /\
  match block r with
  | None => content = [] /\ asize r = 0
  | Some b => Z.of_nat (length b) = asize r /\ take (length content) b = content
  end.

Lemma ssize_id wrapv x : - 2 ^ 63 <= x < 2 ^ 63 -> ssize wrapv x = Some x.
Proof.
  intros H. unfold ssize. destruct (Z.leb_spec (- 2 ^ 63) x); [|lia].
  destruct (Z.ltb_spec x (2 ^ 63)); [done|lia].
Qed.

(** One allocation: what is returned and what the array looks like. *)
Lemma allocate_ok wrapv r content n o :
  ra_ok r content -> 0 <= n -> rsize r + n < 2 ^ 62 ->
  exists p r',
    allocate_element wrapv r n o = Some (p, r') /\
    ((p = None /\ r' = r /\ (o_ok o = false \/ (n = 0 /\ content = [])) /\
      (o_ok o = true -> asize r = 0)) \/
     (p = Some (length content) /\
      rsize r' = rsize r + n /\ rsize r' <= asize r' /\
      (asize r' = asize r \/ (asize r < rsize r' /\ asize r' = 2 * rsize r')) /\
      exists b, block r' = Some b /\ Z.of_nat (length b) = asize r' /\ take (length content) b = content)).
Proof.
  intros (Hs & Hle & Hb) Hn Hmax. unfold allocate_element.
  destruct (Z.ltb_spec (rsize r) 0); [lia|]. destruct (Z.ltb_spec n 0); [lia|].
  cbn [orb]. rewrite ssize_id by lia. cbn [mbind option_bind].
  destruct (Z.ltb_spec (asize r) (rsize r + n)) as [Hg|Hg].
  - rewrite ssize_id by lia. cbn [mbind option_bind].
    destruct (Z.ltb_spec ((rsize r + n) * 2) (rsize r + n)); [lia|].
    unfold realloc. destruct (o_ok o) eqn:Ho.
    + eexists _, _. split; [done|]. right. cbn.
      split; [f_equal; lia|]. split; [done|]. split; [lia|]. split; [lia|].
      eexists. split; [done|].
      set (old := default [] (block r)).
      assert (Hold : Z.of_nat (length old) = asize r /\ take (length content) old = content).
      { unfold old. destruct (block r) as [b|]; [done|]. cbn. destruct Hb as [-> ->]. done. }
      destruct Hold as [Hlen Htk].
      rewrite app_length, take_length, map_length, seq_length.
      split; [lia|].
      rewrite (take_ge old) by lia.
      rewrite take_app_le; [done|]. lia.
    + eexists _, _. split; [done|]. left. split; [done|]. split; [done|]. split; [by left|done].
  - destruct (block r) as [b|] eqn:Eb.
    + eexists _, _. split; [done|]. right. cbn. split; [f_equal; lia|]. split; [done|]. split; [lia|].
      split; [by left|]. exists b. rewrite Eb || idtac. split; [done|]. done.
    + destruct Hb as [-> Ha]. cbn in Hs.
      assert (n = 0) by lia. subst n.
      eexists _, _. split; [done|]. left. split; [done|].
      split; [destruct r as [b0 s0 a0]; cbn in *; subst; f_equal; lia|]. split; [right; done|]. done.
Qed.

Lemma store_ok b i l :
  (i + length l <= length b)%nat ->
  store (Some b) i l = Some (Some (take i b ++ l ++ drop (i + length l) b)).
Proof. intros H. unfold store. destruct (Nat.leb_spec (i + length l) (length b)); [done|lia]. Qed.

Lemma append_bytes_ok wrapv r content l o :
  ra_ok r content -> Z.of_nat (length content + length l) < 2 ^ 62 ->
  exists ok r', append_bytes wrapv r l o = Some (ok, r') /\
    (asize r' = asize r \/ (asize r < rsize r' /\ asize r' = 2 * rsize r')) /\
    ((ok = true /\ ra_ok r' (content ++ l)) \/
     (ok = false /\ r' = r /\ (o_ok o = false \/ (l = [] /\ content = [])))).
Proof.
  intros Hok Hmax.
  destruct (allocate_ok wrapv r content (Z.of_nat (length l)) o) as (p & r' & E & C); [done|lia|
    destruct Hok as [-> _]; lia|].
  unfold append_bytes. rewrite E. cbn [mbind option_bind].
  destruct C as [(-> & -> & Hf & _)|(-> & Hs & Hle & Ha & b & Eb & Hlen & Htk)].
  - eexists _, _. split; [done|]. split; [by left|]. right. split; [done|]. split; [done|].
    destruct Hf as [Hf|[Hf ->]]; [by left|right]. split; [|done]. destruct l; cbn in Hf; [done|lia].
  - rewrite Eb. destruct Hok as (Hs0 & _ & _).
    rewrite store_ok by lia. cbn [mbind option_bind].
    eexists _, _. split; [done|]. cbn. split; [done|]. left. split; [done|].
    split; cbn; [rewrite app_length; lia|]. split; [done|].
    rewrite !app_length, take_length, drop_length. split; [lia|].
    rewrite Htk, (app_assoc content).
    replace (length content + length l)%nat with (length (content ++ l)) by apply app_length.
    by rewrite take_app.
Qed.

(** Reachable text arrays: [Some s] holds the string s, [None] is the freed array. *)
Definition text_ok (r : rarray) (s : option (list Z)) : Prop :=
  match s with
  | None => r = free_mr_ra
  | Some s => ra_ok r (s ++ [0%Z]) /\ block r <> None
  end.

Definition op_text (t : text_op) : list Z :=
  match t with PutChar c => [c] | PutString s => s | Printf s => s end.

(** The stores after a successful allocation. *)
Lemma text_tail r r' s l b :
  ra_ok r (s ++ [0%Z]) ->
  rsize r' = rsize r + Z.of_nat (length l) -> rsize r' <= asize r' ->
  block r' = Some b -> Z.of_nat (length b) = asize r' -> take (length (s ++ [0%Z])) b = s ++ [0%Z] ->
  store (block r') (length s) (l ++ [0%Z]) = Some (Some (take (length s) b ++ (l ++ [0%Z]) ++ drop (length s + length (l ++ [0%Z])) b)) /\
  text_ok (RA (Some (take (length s) b ++ (l ++ [0%Z]) ++ drop (length s + length (l ++ [0%Z])) b)) (rsize r') (asize r')) (Some (s ++ l)).
Proof.
  intros (Hs & _ & _) Hs' Hle Eb Hlen Htk. rewrite app_length in Hs, Htk. cbn in Hs, Htk.
  assert (Hb : (length s + length (l ++ [0%Z]) <= length b)%nat) by (rewrite app_length; cbn; lia).
  rewrite Eb. split; [by rewrite store_ok|].
  split; [|done]. split; cbn [rsize asize block]; [rewrite !app_length; cbn; lia|]. split; [done|].
  split; [rewrite !app_length, take_length, drop_length; cbn; rewrite app_length in Hb; cbn in Hb; lia|].
  assert (Htk' : take (length s) b = s).
  { pose proof (f_equal (take (length s)) Htk) as H. rewrite take_take, Nat.min_l in H by lia.
    by rewrite H, take_app. }
  rewrite Htk', <- (app_assoc s l), (app_assoc s (l ++ [0%Z])). by rewrite take_app.
Qed.

Lemma text_step_ok wrapv r s t o :
  text_ok r s -> Z.of_nat (length (default [] s) + length (op_text t)) < 2 ^ 31 - 1 ->
  exists v r', text_step wrapv r t o = Some (v, r') /\
    match s with
    | None => v = -1 /\ text_ok r' None
    | Some s => (v = Z.of_nat (length (op_text t)) /\ text_ok r' (Some (s ++ op_text t))) \/
                (v = -1 /\ o_ok o = false /\ text_ok r' None)
    end.
Proof.
  destruct s as [s|]; cbn [text_ok].
  2:{ intros -> _. exists (-1), free_mr_ra. split; [by destruct t|done]. }
  intros [Hok Hb] Hmax. cbn [default from_option] in Hmax; unfold id in Hmax.
  assert (Hs : rsize r = Z.of_nat (length s) + 1).
  { destruct Hok as [-> _]. rewrite app_length. cbn. lia. }
  assert (Hguard : (rsize r =? 0) || match block r with None => true | Some _ => false end = false).
  { destruct (block r); [|done]. apply orb_false_iff. split; [lia|done]. }
  assert (Hne : s ++ [0%Z] <> []) by (by destruct s).
  set (l := op_text t) in *.
  destruct (allocate_ok wrapv r (s ++ [0%Z]) (Z.of_nat (length l)) o Hok) as (p & r' & E & C); [lia|lia|].
  assert (Hlp : length (s ++ [0%Z]) = S (length s)) by (rewrite app_length; cbn; lia).
  destruct C as [(-> & -> & Hf & _)|(-> & Hs' & Hle & Ha & b & Eb & Hlen & Htk)].
  - exists (-1), free_mr_ra. split.
    2:{ right. split; [done|]. destruct Hf as [Hf|[_ Hf]]; [done|]. by destruct s. }
    destruct t as [c|str|str]; cbn [text_step]; unfold ra_append_char, ra_append_string, ra_printf;
      rewrite Hguard; cbn [op_text length] in l; subst l; cbn [length] in E.
    + change (Z.of_nat 1) with 1 in E. by rewrite E.
    + rewrite Z.mod_small by lia.
      replace (Z.of_nat (length str) + 2 ^ 31 - 2 ^ 31) with (Z.of_nat (length str)) by lia. by rewrite E.
    + by rewrite E.
  - destruct (text_tail r r' s l b Hok Hs' Hle Eb Hlen Htk) as [Est Htok].
    exists (Z.of_nat (length l)). eexists. split; [|left; split; [done|exact Htok]].
    destruct t as [c|str|str]; cbn [text_step]; unfold ra_append_char, ra_append_string, ra_printf;
      rewrite Hguard; cbn [op_text] in l; subst l.
    + cbn [length] in E, Hs' |- *. change (Z.of_nat 1) with 1 in *. rewrite E.
      cbn [mbind option_bind]. rewrite Hlp. cbn [before mbind option_bind].
      rewrite Eb. cbn [app length] in *.
      rewrite store_ok by (cbn; lia). cbn [mbind option_bind].
      rewrite store_ok by (rewrite !app_length, take_length, drop_length; cbn; lia).
      cbn [mbind option_bind]. do 4 f_equal.
      assert (Hb2 : (S (length s) < length b)%nat) by lia.
      set (A := take (length s) b ++ [c]).
      assert (Hl1 : length A = S (length s)) by (unfold A; rewrite app_length, take_length; cbn; lia).
      rewrite (app_assoc _ [c]). fold A. rewrite <- Hl1 at 1. rewrite take_app.
      rewrite <- Hl1, <- drop_drop, drop_app, drop_drop. unfold A. rewrite <- app_assoc. cbn.
      do 4 f_equal. lia.
    + rewrite Z.mod_small by lia.
      replace (Z.of_nat (length str) + 2 ^ 31 - 2 ^ 31) with (Z.of_nat (length str)) by lia.
      rewrite E. cbn [mbind option_bind]. rewrite Hlp. cbn [before mbind option_bind]. by rewrite Est.
    + rewrite E. cbn [mbind option_bind]. rewrite Hlp. cbn [before mbind option_bind]. rewrite Est.
      cbn [mbind option_bind]. do 2 f_equal. f_equal. lia.
Qed.

(** *** Histories *)

(** Bytes of the accepted appends, in order. *)
Fixpoint kept (ls : list (list Z * oracle)) (oks : list bool) : list Z :=
  match ls, oks with
  | (l, _) :: ls, ok :: oks => (if ok then l else []) ++ kept ls oks
  | _, _ => []
  end.

(** Number of bytes offered. *)
Definition offered (ls : list (list Z * oracle)) : nat := length (concat (map fst ls)).

Lemma bytes_run_ok wrapv ls : forall r content,
  ra_ok r content -> Z.of_nat (length content + offered ls) < 2 ^ 62 ->
  exists oks n r', bytes_run wrapv r ls = Some (oks, n, r') /\
    length oks = length ls /\
    ra_ok r' (content ++ kept ls oks) /\
    (forall i l o, ls !! i = Some (l, o) -> o_ok o = true -> l <> [] -> oks !! i = Some true) /\
    2 ^ Z.of_nat n * (asize r + 2) <= asize r' + 2 /\
    (asize r' = asize r \/ asize r' <= 2 * rsize r').
Proof.
  induction ls as [|[l o] ls IH]; intros r content Hok Hmax.
  - exists [], O, r. cbn. rewrite app_nil_r. split_and!; try done; [lia|by left].
  - unfold offered in Hmax. cbn in Hmax. rewrite app_length in Hmax. fold (offered ls) in Hmax.
    destruct (append_bytes_ok wrapv r content l o) as (ok & r1 & E & Ha & C); [done|lia|].
    assert (Hok1 : ra_ok r1 (content ++ (if ok then l else []))).
    { destruct C as [[-> H]|(-> & -> & _)]; [done|]. by rewrite app_nil_r. }
    destruct (IH r1 (content ++ (if ok then l else []))) as (oks & n & r2 & E2 & Hlen & Hok2 & Hs & Hn & Hd).
    { done. } { rewrite app_length. destruct ok; cbn; lia. }
    cbn [bytes_run]. rewrite E. cbn [mbind option_bind]. rewrite E2. cbn [mbind option_bind].
    eexists _, _, _. split; [done|]. cbn [length kept]. split; [lia|].
    split; [by rewrite app_assoc|].
    split.
    { intros [|i] l' o'; cbn; [|apply Hs]. intros [= <- <-] Ho Hl.
      destruct C as [[-> _]|(_ & _ & [Hf|[Hf _]])]; [done| |done]. congruence. }
    destruct Hok2 as (Hs2 & Hle2 & Hb2).
    assert (Hmono : rsize r1 <= rsize r2).
    { destruct Hok1 as [-> _]. rewrite Hs2, !app_length. lia. }
    assert (Hpos : 0 <= asize r) by (destruct Hok as (Hs0 & ? & _); lia).
    assert (Hp : 0 < 2 ^ Z.of_nat n) by (apply Z.pow_pos_nonneg; lia).
    destruct (Z.eqb_spec (asize r) (asize r1)) as [Heq|Hne].
    + cbn [Nat.add]. rewrite Heq. done.
    + destruct Ha as [Ha|[Ha1 Ha2]]; [congruence|].
      rewrite Nat2Z.inj_add, Z.pow_add_r by lia. change (2 ^ Z.of_nat 1) with 2.
      split; [nia|]. right. destruct Hd as [Hd|Hd]; lia.
Qed.

Lemma text_run_ok wrapv ts : forall r s,
  text_ok r s -> Z.of_nat (length (default [] s) + length (concat (map (fun x => op_text (fst x)) ts))) < 2 ^ 31 - 1 ->
  exists vs r', text_run wrapv r ts = Some (vs, r') /\
    match s with
    | None => vs = map (fun _ => -1) ts /\ text_ok r' None
    | Some s =>
      (vs = map (fun x => Z.of_nat (length (op_text (fst x)))) ts /\
       text_ok r' (Some (s ++ concat (map (fun x => op_text (fst x)) ts)))) \/
      (text_ok r' None /\
       exists k o, (o_ok o = false /\ snd <$> ts !! k = Some o) /\
         vs = map (fun x => Z.of_nat (length (op_text (fst x)))) (take k ts) ++ map (fun _ => -1) (drop k ts))
    end.
Proof.
  induction ts as [|[t o] ts IH]; intros r s Hok Hmax.
  - exists [], r. cbn. split; [done|]. destruct s as [s|]; [|done]. left. by rewrite app_nil_r.
  - cbn [map concat fst] in Hmax. rewrite app_length in Hmax.
    destruct (text_step_ok wrapv r s t o) as (v & r1 & E & C); [done|lia|].
    cbn [text_run]. rewrite E. cbn [mbind option_bind].
    destruct s as [s|].
    + destruct C as [[-> Hok1]|(-> & Ho & Hok1)].
      * destruct (IH r1 _ Hok1) as (vs & r2 & E2 & C2).
        { cbn in *. rewrite app_length. lia. }
        rewrite E2. cbn [mbind option_bind]. eexists _, _. split; [done|]. cbn [map fst concat].
        destruct C2 as [[-> H2]|(H2 & k & o' & [Ho' Hk] & ->)].
        -- left. split; [done|]. by rewrite app_assoc.
        -- right. split; [done|]. exists (S k), o'. done.
      * destruct (IH r1 None Hok1) as (vs & r2 & E2 & -> & H2). { cbn in *. lia. }
        rewrite E2. cbn [mbind option_bind]. eexists _, _. split; [done|]. right. split; [done|].
        exists O, o. done.
    + destruct C as [-> Hok1].
      destruct (IH r1 None Hok1) as (vs & r2 & E2 & -> & H2). { cbn in *. lia. }
      rewrite E2. cbn [mbind option_bind]. eexists _, _. split; [done|]. done.
Qed.
