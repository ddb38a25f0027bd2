(** C36: growable arrays never lose data; C55: text output is complete or absent. *)
From Verif Require Import Base RArray RArrayProof.
Local Open Scope Z_scope.

(** The used part of an array: [MR_SIZE] bytes from the start of its block. *)
Definition used (r : rarray) : list Z := take (Z.to_nat (rsize r)) (default [] (block r)).

(** Bytes that must be in the array after a history of appends with the given
    answers: those of the accepted appends, in order. *)
Fixpoint accepted (ls : list (list Z * oracle)) (oks : list bool) : list Z :=
  match ls, oks with
  | (l, _) :: ls, true :: oks => l ++ accepted ls oks
  | _ :: ls, false :: oks => accepted ls oks
  | _, _ => []
  end.

(** C36.  Any history of appends of blocks of bytes to an empty array, with
    arbitrary allocation failures and arbitrary content of fresh memory: nothing
    undefined happens, the array holds exactly the accepted bytes (so a failed
    append changes nothing and earlier data are kept), the size is within the
    allocated block, an append of something is refused only when an allocation
    fails, and the number n of reallocations satisfies 2^n <= size + 1. *)
Theorem C36_append_history : forall wrapv ls,
  Z.of_nat (length (concat (map fst ls))) < 2 ^ 62 ->
  exists oks n r, bytes_run wrapv ra_empty ls = Some (oks, n, r) /\
    length oks = length ls /\
    used r = accepted ls oks /\
    rsize r = Z.of_nat (length (accepted ls oks)) /\
    rsize r <= asize r /\ asize r = Z.of_nat (length (default [] (block r))) /\
    (forall i l o, ls !! i = Some (l, o) -> o_ok o = true -> l <> [] -> oks !! i = Some true) /\
    2 ^ Z.of_nat n <= rsize r + 1.
Proof.
  intros wrapv ls Hmax.
  destruct (bytes_run_ok wrapv ls ra_empty []) as (oks & n & r & E & Hlen & Hok & Hs & Hn & Hd).
  { by split_and!. } { done. }
  exists oks, n, r.
  assert (Hk : kept ls oks = accepted ls oks).
  { clear. revert oks. induction ls as [|[l o] ls IH]; intros [|[] oks]; cbn; try done; by rewrite IH. }
  cbn [app] in Hok. rewrite Hk in Hok. destruct Hok as (Hs1 & Hle & Hb).
  split; [done|]. split; [done|].
  split. { unfold used. rewrite Hs1, Nat2Z.id. destruct (block r); cbn; [by destruct Hb|]. destruct Hb as [-> _]. done. }
  split; [done|]. split; [done|].
  split. { destruct (block r); cbn; [by destruct Hb|]. by destruct Hb. }
  split; [done|]. cbn in Hn, Hd. destruct Hd as [Hd|Hd]; lia.
Qed.
Print Assumptions C36_append_history.

(** Three appends, the second one refused: two reallocations would be needed only
    after the block of 6 bytes is full. *)
Example C36_case :
  bytes_run false ra_empty [([1; 2; 3], Orc true (fun _ => 99)); ([4; 5; 6; 7], Orc false (fun _ => 0));
                            ([8; 9], Orc true (fun _ => 77)); ([10; 11], Orc true (fun _ => 55))]
  = Some ([true; false; true; true], 2%nat,
          RA (Some [1; 2; 3; 8; 9; 10; 11; 55; 55; 55; 55; 55; 55; 55]) 7 14).
Proof. reflexivity. Qed.

(** The overflow check at src/metaresc.c:586 comes too late: doubling a size of
    2^62 or more is undefined. *)
Theorem C36_doubling_overflow_refuted : forall r n o,
  0 <= rsize r -> 0 <= n -> asize r < rsize r + n -> 2 ^ 62 <= rsize r + n ->
  allocate_element false r n o = None.
Proof.
  intros r n o Hr Hn Ha Hbig. unfold allocate_element.
  destruct (Z.ltb_spec (rsize r) 0); [lia|]. destruct (Z.ltb_spec n 0); [lia|]. cbn [orb].
  unfold ssize. destruct (Z.ltb_spec (rsize r + n) (2 ^ 63)).
  2:{ by rewrite andb_false_r. }
  destruct (Z.leb_spec (- 2 ^ 63) (rsize r + n)); [|lia]. cbn [andb mbind option_bind].
  destruct (Z.ltb_spec (asize r) (rsize r + n)); [|lia].
  destruct (Z.ltb_spec ((rsize r + n) * 2) (2 ^ 63)); [lia|]. by rewrite andb_false_r.
Qed.
Print Assumptions C36_doubling_overflow_refuted.

(** Even when overflow wraps, a sum above 2^63 is accepted: a place is returned
    without any allocation and the recorded size becomes negative. *)
Theorem C36_sum_overflow_refuted : forall b o a,
  2 ^ 62 <= a < 2 ^ 63 ->
  exists i, allocate_element true (RA (Some b) (2 ^ 62) a) (2 ^ 62) o = Some (Some i, RA (Some b) (- 2 ^ 63) a).
Proof.
  intros b o a Ha. exists (Z.to_nat (2 ^ 62)). unfold allocate_element. cbn [rsize asize block].
  destruct (Z.ltb_spec (2 ^ 62) 0); [lia|]. cbn [orb].
  change (ssize true (2 ^ 62 + 2 ^ 62)) with (Some (- 2 ^ 63)). cbn [mbind option_bind].
  destruct (Z.ltb_spec a (- 2 ^ 63)); [lia|]. done.
Qed.
Print Assumptions C36_sum_overflow_refuted.

(** What one output call adds to the text. *)
Definition added (t : text_op) : list Z :=
  match t with PutChar c => [c] | PutString s => s | Printf s => s end.
Definition all_added (ts : list (text_op * oracle)) : list Z := concat (map (fun x => added (fst x)) ts).

(** C55.  Any history of output calls on a text starting as [s]: either every call
    reports the number of characters it added and the block holds the whole text
    with its terminator, or an allocation failed at some call, this and all later
    calls report -1 and there is no block: a truncated text is never left. *)
Theorem C55_text_complete_or_absent : forall wrapv s ts,
  Z.of_nat (length (s ++ all_added ts)) < 2 ^ 31 - 1 ->
  exists vs r, text_run wrapv (ra_text s) ts = Some (vs, r) /\
    ((vs = map (fun x => Z.of_nat (length (added (fst x)))) ts /\
      rsize r = Z.of_nat (length (s ++ all_added ts)) + 1 /\
      rsize r <= asize r /\
      exists rest, block r = Some (s ++ all_added ts ++ 0 :: rest)) \/
     (r = RA None 0 0 /\
      exists k t o, ts !! k = Some (t, o) /\ o_ok o = false /\
        vs = map (fun x => Z.of_nat (length (added (fst x)))) (take k ts) ++ replicate (length ts - k) (-1))).
Proof.
  intros wrapv s ts Hmax.
  assert (Hall : all_added ts = concat (map (fun x => op_text (fst x)) ts)) by done.
  rewrite app_length in Hmax. rewrite Hall in Hmax |- *.
  destruct (text_run_ok wrapv ts (ra_text s) (Some s)) as (vs & r & E & C).
  { split; [|done]. split; cbn; [rewrite app_length; cbn; lia|]. split; [lia|].
    rewrite app_length. cbn. split; [lia|]. apply take_ge. rewrite app_length. cbn. lia. }
  { exact Hmax. }
  exists vs, r. split; [done|].
  destruct C as [[-> [(Hs & Hle & Hb) Hne]]|(-> & k & o & [Ho Hk] & ->)].
  - left. split; [done|]. split; [rewrite Hs, !app_length; cbn; lia|]. split; [done|].
    destruct (block r) as [b|]; [|done]. destruct Hb as [_ Htk].
    exists (drop (length ((s ++ concat (map (fun x => op_text (fst x)) ts)) ++ [0%Z])) b).
    f_equal. rewrite <- (take_drop (length ((s ++ concat (map (fun x => op_text (fst x)) ts)) ++ [0%Z])) b) at 1.
    rewrite Htk, <- !app_assoc. done.
  - right. split; [done|]. destruct (ts !! k) as [[t o']|] eqn:Ek; [|done].
    cbn in Hk. injection Hk as ->. exists k, t, o. split; [done|]. split; [done|].
    f_equal. rewrite <- drop_length.
    clear. induction (drop k ts) as [|x l IH]; [done|]. cbn. by rewrite IH.
Qed.
Print Assumptions C55_text_complete_or_absent.

(** When no allocation fails the text is complete. *)
Theorem C55_text_complete : forall wrapv s ts,
  Z.of_nat (length (s ++ all_added ts)) < 2 ^ 31 - 1 ->
  Forall (fun x => o_ok (snd x) = true) ts ->
  exists vs r rest, text_run wrapv (ra_text s) ts = Some (vs, r) /\
    block r = Some (s ++ all_added ts ++ 0 :: rest).
Proof.
  intros wrapv s ts Hmax Hall.
  destruct (C55_text_complete_or_absent wrapv s ts Hmax) as (vs & r & E & [(_ & _ & _ & rest & Hb)|(_ & k & t & o & Hk & Ho & _)]).
  - by exists vs, r, rest.
  - rewrite Forall_lookup in Hall. specialize (Hall k _ Hk). cbn in Hall. congruence.
Qed.
Print Assumptions C55_text_complete.

Example C55_case :
  text_run false (ra_text [10]) [(PutChar 34, Orc true (fun _ => 1)); (PutString [97; 98; 99], Orc true (fun _ => 2));
                                 (Printf [52; 50], Orc true (fun _ => 3))]
  = Some ([1; 3; 2], RA (Some [10; 34; 97; 98; 99; 52; 50; 0; 3; 3; 3; 3; 3; 3; 3; 3]) 8 16).
Proof. reflexivity. Qed.
Example C55_failing_case :
  text_run false (ra_text []) [(PutString [97; 98; 99], Orc true (fun _ => 2)); (Printf [52; 50; 50; 50; 50], Orc false (fun _ => 3));
                               (PutChar 34, Orc true (fun _ => 1))]
  = Some ([3; -1; -1], RA None 0 0).
Proof. reflexivity. Qed.
