(** C85: the XDR stream on a resizable array (src/xdr.c:26-235). *)
From Verif Require Import Base RArray RArrayProof Xdr XdrProof XdrStream.
Local Open Scope Z_scope.

(** *** The statements' own vocabulary *)
(** What is put into a stream: a word or bytes. *)
Inductive item := Word (v : Z) | Bytes (l : list Z).
(** Its bytes: words in network byte order. *)
Definition wire (x : item) : list Z :=
  match x with Word v => [v / 16777216 mod 256; v / 65536 mod 256; v / 256 mod 256; v mod 256] | Bytes l => l end.
Definition wires (l : list item) : list Z := concat (map wire l).
(** What is read back. *)
Definition same (x y : item) : Prop :=
  match x, y with Word v, Word w => w = v mod 2 ^ 32 | Bytes l, Bytes m => m = l | _, _ => False end.

Definition put (wrapv : bool) (s : stream) (x : item) (o : oracle) : option (bool * stream) :=
  match x with Word v => xdrra_putlong wrapv s v o | Bytes l => xdrra_putbytes wrapv s l o end.
Fixpoint write (wrapv : bool) (s : stream) (xs : list (item * oracle)) : option (list bool * stream) :=
  match xs with
  | [] => Some ([], s)
  | (x, o) :: xs => '(ok, s) ← put wrapv s x o; '(oks, s) ← write wrapv s xs; Some (ok :: oks, s)
  end.
Fixpoint accepted (xs : list (item * oracle)) (oks : list bool) : list item :=
  match xs, oks with
  | (x, _) :: xs, ok :: oks => if (ok : bool) then x :: accepted xs oks else accepted xs oks
  | _, _ => []
  end.
(** The read for an item like [x]. *)
Definition get (s : stream) (x : item) : option (option item * stream) :=
  match x with
  | Word _ => '(v, s) ← xdrra_getlong s; Some (match v with Some v => Some (Word v) | None => None end, s)
  | Bytes l => '(m, s) ← xdrra_getbytes s (Z.of_nat (length l)); Some (match m with Some m => Some (Bytes m) | None => None end, s)
  end.

(** The used part of the array. *)
Definition content (s : stream) : list Z := take (Z.to_nat (rsize (ra s))) (default [] (block (ra s))).
(** The position is not behind the end of the data. *)
Definition inside (s : stream) : Prop :=
  0 <= handy s <= rsize (ra s) /\ rsize (ra s) <= Z.of_nat (length (default [] (block (ra s)))) /\ rsize (ra s) < 2 ^ 32.

(** *** Reads *)
Lemma take_drop_content s n : inside s -> 0 <= n -> handy s + n <= rsize (ra s) ->
  peek (Z.to_nat n) (default [] (block (ra s))) (handy s) = Some (take (Z.to_nat n) (drop (Z.to_nat (handy s)) (content s))).
Proof.
  intros ((H1 & H2) & H3 & H4) Hn Hs. rewrite peek_spec by lia. f_equal. unfold content.
  rewrite skipn_firstn_comm, take_take. f_equal. lia.
Qed.

Lemma get_raw_ok s n : inside s -> 0 <= n -> handy s + n <= rsize (ra s) ->
  get_raw s n = Some (take (Z.to_nat n) (drop (Z.to_nat (handy s)) (content s)), XS (ra s) (handy s + n)).
Proof.
  intros I Hn Hs. unfold get_raw. rewrite take_drop_content by done. cbn [mbind option_bind]. destruct I as ((H1 & H2) & H3 & H4).
  by rewrite u32_small by lia.
Qed.

(** Reads never leave the data, succeed if and only if there are enough bytes, and stay where they are
    otherwise. *)
Theorem C85_reads_inside : forall s n, inside s -> 0 <= n ->
  (handy s + n <= rsize (ra s) ->
     xdrra_getbytes s n = Some (Some (take (Z.to_nat n) (drop (Z.to_nat (xdrra_getpostn s)) (content s))), XS (ra s) (handy s + n)) /\
     inside (XS (ra s) (handy s + n))) /\
  (rsize (ra s) < handy s + n -> xdrra_getbytes s n = Some (None, s)) /\
  (handy s + 4 <= rsize (ra s) -> exists a b c d,
     take 4 (drop (Z.to_nat (xdrra_getpostn s)) (content s)) = [a; b; c; d] /\
     xdrra_getlong s = Some (Some (16777216 * a + 65536 * b + 256 * c + d), XS (ra s) (handy s + 4)) /\
     inside (XS (ra s) (handy s + 4))) /\
  (rsize (ra s) < handy s + 4 -> xdrra_getlong s = Some (None, s)).
Proof.
  intros s n I Hn. pose proof I as ((H1 & H2) & H3 & H4). unfold xdrra_getpostn. split; [|split; [|split]].
  - intros H. unfold xdrra_getbytes. destruct (Z.ltb_spec (rsize (ra s) - handy s) n); [lia|]. rewrite get_raw_ok by done. split; [done|].
    split; cbn; lia.
  - intros H. unfold xdrra_getbytes. destruct (Z.ltb_spec (rsize (ra s) - handy s) n); [done|lia].
  - intros H. unfold xdrra_getlong. rewrite Z.mod_small by lia. destruct (Z.ltb_spec (rsize (ra s) - handy s) 4); [lia|].
    rewrite get_raw_ok by done. cbn [mbind option_bind]. change (Z.to_nat 4) with 4%nat.
    assert (L : length (take 4 (drop (Z.to_nat (handy s)) (content s))) = 4%nat).
    { unfold content. rewrite take_length, drop_length, take_length. lia. }
    destruct (take 4 _) as [|a [|b [|c [|d [|]]]]]; try (cbn in L; lia). exists a, b, c, d. split; [done|].
    unfold of_be32. cbn [fold_left]. split; [|split; cbn; lia]. do 3 f_equal. lia.
  - intros H. unfold xdrra_getlong. rewrite Z.mod_small by lia. destruct (Z.ltb_spec (rsize (ra s) - handy s) 4); [done|lia].
Qed.
Print Assumptions C85_reads_inside.

(** *** Writes *)
Lemma put_ok wrapv s cont x o : ra_ok (ra s) cont -> handy s = Z.of_nat (length cont) -> Z.of_nat (length (cont ++ wire x)) < 2 ^ 32 ->
  exists ok s', put wrapv s x o = Some (ok, s') /\ handy s' = Z.of_nat (length (if ok then cont ++ wire x else cont)) /\
    ra_ok (ra s') (if ok then cont ++ wire x else cont) /\ (o_ok o = true -> wire x <> [] -> ok = true).
Proof.
  intros R Hh Hl. assert (put wrapv s x o = put_raw wrapv s (wire x) o) as ->.
  { destruct x as [v|l]; [|done]. unfold put, xdrra_putlong. enough (be32 (v mod 2 ^ 32) = wire (Word v)) as -> by done. unfold be32, wire.
    change (2 ^ 24) with 16777216. change (2 ^ 16) with 65536. change (2 ^ 8) with 256.
    assert (M : forall k m, 0 < k -> 2 ^ 32 = k * 256 * m -> 0 < m -> (v mod 2 ^ 32) / k mod 256 = v / k mod 256).
    { intros k m Hk E Hm. rewrite E. rewrite Z.rem_mul_r with (a := v) (b := k * 256) by lia. rewrite Z.rem_mul_r with (a := v) (b := k) by lia.
      replace (v mod k + k * (v / k mod 256) + k * 256 * (v / (k * 256) mod m)) with (v mod k + (v / k mod 256 + 256 * (v / (k * 256) mod m)) * k) by ring.
      rewrite Z.div_add by lia. rewrite (Z.div_small (v mod k)) by (apply Z.mod_pos_bound; lia).
      rewrite Z.add_0_l, Z.mul_comm, Z.mod_add by lia. apply Z.mod_mod. lia. }
    rewrite (M 16777216 1), (M 65536 256), (M 256 65536) by lia.
    pose proof (M 1 16777216 ltac:(lia) ltac:(lia) ltac:(lia)) as M1. rewrite !Z.div_1_r in M1. by rewrite M1. }
  unfold put_raw. rewrite app_length in Hl.
  destruct (append_bytes_ok wrapv (ra s) cont (wire x) o R ltac:(lia)) as (ok & r' & E & _ & C). rewrite E. cbn [mbind option_bind].
  exists ok, (XS r' (if ok then u32 (handy s + Z.of_nat (length (wire x))) else handy s)). split; [done|]. cbn. destruct C as [[-> R']|(-> & -> & Hf)].
  - rewrite u32_small by lia. rewrite app_length. split; [lia|]. done.
  - split; [done|]. split; [done|]. intros Ho Hw. destruct Hf as [Hf|[Hf _]]; [congruence|done].
Qed.

Lemma write_ok wrapv xs : forall s cont, ra_ok (ra s) cont -> handy s = Z.of_nat (length cont) -> Z.of_nat (length (cont ++ wires (map fst xs))) < 2 ^ 32 ->
  exists oks s', write wrapv s xs = Some (oks, s') /\ length oks = length xs /\
    ra_ok (ra s') (cont ++ wires (accepted xs oks)) /\ handy s' = Z.of_nat (length (cont ++ wires (accepted xs oks))) /\
    Z.of_nat (length (cont ++ wires (accepted xs oks))) < 2 ^ 32 /\
    (forall i x o, xs !! i = Some (x, o) -> o_ok o = true -> wire x <> [] -> oks !! i = Some true).
Proof.
  induction xs as [|[x o] xs IH]; intros s cont R Hh Hl.
  - exists [], s. cbn in *. rewrite !app_nil_r in *. done.
  - cbn [map fst] in Hl. change (wires (x :: ?l)) with (wire x ++ wires l) in Hl. rewrite !app_length in Hl.
    destruct (put_ok wrapv s cont x o R Hh) as (ok & s1 & E & Hh1 & R1 & Hok); [rewrite app_length; lia|].
    destruct (IH s1 _ R1 Hh1) as (oks & s2 & E2 & L & R2 & Hh2 & Hl2 & Hok2); [destruct ok; rewrite ?app_length; lia|].
    exists (ok :: oks), s2. cbn [write]. rewrite E. cbn [mbind option_bind]. rewrite E2. split; [done|]. split; [cbn; lia|].
    assert (Ec : cont ++ wires (accepted ((x, o) :: xs) (ok :: oks)) = (if ok then cont ++ wire x else cont) ++ wires (accepted xs oks)).
    { destruct ok; cbn; [|done]. change (wires (x :: ?l)) with (wire x ++ wires l). by rewrite app_assoc. }
    rewrite Ec. split; [done|]. split; [done|]. split; [done|]. intros [|i] x' o' Hi; cbn in *; [|by eapply Hok2].
    injection Hi as -> ->. intros Ho Hw. f_equal. auto.
Qed.

(** C85: after any writes the array is the sequence of the accepted ones, whatever allocations failed, and each
    can be read at the position where the stream was when it was written. *)
Theorem C85_stream : forall wrapv xs, Z.of_nat (length (wires (map fst xs))) < 2 ^ 32 ->
  exists oks s, write wrapv (xdrra_create ra_empty) xs = Some (oks, s) /\ length oks = length xs /\
    (forall i x o, xs !! i = Some (x, o) -> o_ok o = true -> wire x <> [] -> oks !! i = Some true) /\
    content s = wires (accepted xs oks) /\ xdrra_getpostn s = Z.of_nat (length (wires (accepted xs oks))) /\
    forall before x after, accepted xs oks = before ++ x :: after ->
      exists y s', get (snd (xdrra_setpostn (xdrra_create (ra s)) (Z.of_nat (length (wires before))))) x = Some (Some y, s') /\
        same x y /\ ra s' = ra s /\ xdrra_getpostn s' = Z.of_nat (length (wires (before ++ [x]))).
Proof.
  intros wrapv xs Hl. destruct (write_ok wrapv xs (xdrra_create ra_empty) []) as (oks & s & E & L & R & Hh & Hc & Hok); [done|done|done|].
  cbn [app] in R, Hh, Hc. exists oks, s. split; [done|]. split; [done|]. split; [done|].
  assert (Ec : content s = wires (accepted xs oks)).
  { unfold content. destruct R as (R1 & R2 & R3). rewrite R1, Nat2Z.id. destruct (block (ra s)) as [b|]; cbn; [by destruct R3|].
    destruct R3 as [-> _]. done. }
  split; [done|]. split; [done|]. intros before x after Ea.
  assert (Ew : wires (accepted xs oks) = wires before ++ wire x ++ wires after).
  { rewrite Ea. unfold wires. rewrite map_app, concat_app. done. }
  assert (Ex : wires (before ++ [x]) = wires before ++ wire x).
  { unfold wires. rewrite map_app, concat_app. cbn. by rewrite app_nil_r. }
  destruct R as (R1 & R2 & R3). rewrite Ew, !app_length in R1, Hc.
  set (s0 := snd (xdrra_setpostn (xdrra_create (ra s)) (Z.of_nat (length (wires before))))).
  assert (I : inside s0).
  { split; [cbn; lia|]. split; [|cbn; lia]. cbn. destruct (block (ra s)) as [b|]; cbn; [lia|]. destruct R3 as [_ R3]. lia. }
  assert (E0 : content s0 = content s) by done.
  assert (T : take (Z.to_nat (Z.of_nat (length (wire x)))) (drop (Z.to_nat (xdrra_getpostn s0)) (content s0)) = wire x).
  { rewrite E0, Ec, Ew. cbn. rewrite !Nat2Z.id, drop_app, take_app. done. }
  destruct (C85_reads_inside s0 (Z.of_nat (length (wire x))) I ltac:(lia)) as (B & _ & W & _). rewrite Ex, app_length. destruct x as [v|l]; cbn [get].
  - destruct W as (a & b & c & d & E4 & E5 & _); [cbn in *; lia|]. rewrite E5. cbn [mbind option_bind]. eexists (Word _), _. split; [done|].
    split; [|split; [done|cbn; lia]]. cbn [length wire] in T. change (Z.to_nat (Z.of_nat 4)) with 4%nat in T. rewrite E4 in T. injection T as -> -> -> ->. unfold same.
    change (2 ^ 32) with (256 * 16777216). rewrite (Z.rem_mul_r v 256) by lia. change 16777216 with (256 * 65536) at 3. rewrite (Z.rem_mul_r (v / 256) 256) by lia.
    rewrite Z.div_div by lia. change 65536 with (256 * 256) at 3. rewrite (Z.rem_mul_r (v / (256 * 256)) 256) by lia. rewrite Z.div_div by lia.
    change (256 * 256 * 256) with 16777216. change (256 * 256) with 65536. ring.
  - destruct B as [B _]; [cbn in *; lia|]. cbn [wire] in B, T. rewrite B, T. cbn [mbind option_bind]. eexists (Bytes _), _. split; [done|].
    split; [done|]. split; [done|]. cbn. lia.
Qed.
Print Assumptions C85_stream.

Example C85_example :
  let xs := [(Word (-2), Orc true (fun _ => 99)); (Bytes [1; 2; 3], Orc true (fun _ => 77)); (Bytes [7; 7; 7; 7; 7; 7; 7; 7; 7], Orc false (fun _ => 0)); (Word 258, Orc true (fun _ => 55))] in
  Z.of_nat (length (wires (map fst xs))) < 2 ^ 32 /\
  exists s, write false (xdrra_create ra_empty) xs = Some ([true; true; false; true], s) /\ content s = [255; 255; 255; 254; 1; 2; 3; 0; 0; 1; 2].
Proof. split; [done|]. eexists. split; [vm_compute; reflexivity|vm_compute; reflexivity]. Qed.

(** *** What does not hold *)
Lemma peek_S n b h : peek (S n) b h = if h <? 0 then None else x ← rd b (Z.to_nat h); l ← peek n b (h + 1); Some (x :: l).
Proof. reflexivity. Qed.

(** xdrra_setpostn accepts every position; then xdrra_getlong reads outside of the block, while
    xdrra_getbytes fails. *)
Theorem C85_setpostn_refuted : forall s pos, 0 <= rsize (ra s) < pos -> pos < 2 ^ 32 -> Z.of_nat (length (default [] (block (ra s)))) < pos + 4 ->
  let '(ok, s') := xdrra_setpostn s pos in
  ok = true /\ xdrra_getlong s' = None /\ forall n, 0 <= n -> xdrra_getbytes s' n = Some (None, s').
Proof.
  intros s pos H1 H2 H3. cbn. split; [done|]. split.
  - unfold xdrra_getlong. cbn [ra handy]. rewrite <- (Z.mod_add _ 1) by lia. rewrite Z.mod_small by lia.
    destruct (Z.ltb_spec (rsize (ra s) - pos + 1 * 2 ^ 64) 4); [lia|]. unfold get_raw. cbn [ra handy].
    assert (P : forall n b h, 0 <= h -> Z.of_nat (length b) < h + Z.of_nat (S n) -> peek (S n) b h = None).
    { clear. induction n as [|n IH]; intros b h Hh Hb; rewrite peek_S.
      - destruct (Z.ltb_spec h 0); [lia|]. unfold rd. by rewrite lookup_ge_None_2 by lia.
      - destruct (Z.ltb_spec h 0); [lia|]. unfold rd. destruct (b !! Z.to_nat h); [|done]. cbn [mbind option_bind]. rewrite IH by lia. done. }
    change (Z.to_nat 4) with 4%nat. rewrite P by lia. done.
  - intros n Hn. unfold xdrra_getbytes. cbn [ra handy]. destruct (Z.ltb_spec (rsize (ra s) - pos) n); [done|lia].
Qed.
Print Assumptions C85_setpostn_refuted.

(** A case: position 100 of an array of four bytes. *)
Example C85_setpostn_case : let s := XS (RA (Some [0; 0; 0; 5; 9; 9; 9; 9]) 4 8) 0 in
  0 <= rsize (ra s) < 100 /\ Z.of_nat (length (default [] (block (ra s)))) < 100 + 4 /\ xdrra_getlong s = Some (Some 5, XS (ra s) 4).
Proof. by repeat split. Qed.

(** xdrra_inline does not consume the bytes it returns: the next read gives them again. *)
Theorem C85_inline_refuted : forall s n p s', inside s -> 0 <= n -> xdrra_inline s n = (Some p, s') ->
  xdrra_getpostn s' = p /\ xdrra_getbytes s' n = Some (Some (take (Z.to_nat n) (drop (Z.to_nat p) (content s))), XS (ra s) (p + n)).
Proof.
  intros s n p s' I Hn. unfold xdrra_inline. destruct (Z.ltb_spec (rsize (ra s) - handy s) n) as [H|H]; [done|]. intros [= <- <-].
  split; [done|]. destruct (C85_reads_inside s n I Hn) as ([B _] & _); [lia|]. exact B.
Qed.
Print Assumptions C85_inline_refuted.

Example C85_inline_case : let s := XS (RA (Some [0; 0; 0; 5; 0; 0; 0; 6]) 8 8) 0 in
  inside s /\ xdrra_inline s 4 = (Some 0, s) /\ xdrra_getlong s = Some (Some 5, XS (ra s) 4).
Proof. by repeat split. Qed.
