(** Properties C28, C29, C30, C53, C54: XDR. *)
From Coq Require Import ZArith Lia.
From Verif Require Import Base Xdr XdrProof.
Local Open Scope Z_scope.

(** ** C28: integers *)

(** Words of the encoding. *)
Definition words (k : ikind) : nat := match k with I64 => 2 | I128 => 4 | _ => 1 end.

(** Every value of every width decodes to itself, at any place of a stream, and
    takes the number of bytes of its words. *)
Theorem C28_xdr_int_round_trip : forall k v before after,
  0 <= v < 2 ^ bits k ->
  Z.of_nat (length (before ++ put_int k v ++ after)) < 2 ^ 32 ->
  get_int k (before ++ put_int k v ++ after) (Z.of_nat (length before))
    = Ok v (Z.of_nat (length before + length (put_int k v))) /\
  length (put_int k v) = (4 * words k)%nat /\
  Forall (fun c => 0 <= c < 256) (put_int k v).
Proof.
  intros k v p q Hv Hl. split; [by apply reads_get_int|]. split; [by destruct k as [|[]| | |]|].
  apply put_int_bytes.
Qed.
Print Assumptions C28_xdr_int_round_trip.

(** Different values have different encodings. *)
Theorem C28_xdr_int_injective : forall k v w,
  0 <= v < 2 ^ bits k -> 0 <= w < 2 ^ bits k -> put_int k v = put_int k w -> v = w.
Proof.
  intros k v w Hv Hw E.
  assert (L : forall x, Z.of_nat (length ([] ++ put_int k x ++ [])) < 2 ^ 32).
  { intros. rewrite app_nil_r. cbn [app]. destruct k as [|[]| | |]; cbn -[Z.pow]; lia. }
  pose proof (reads_get_int k v Hv [] [] (L v)) as Rv. pose proof (reads_get_int k w Hw [] [] (L w)) as Rw.
  rewrite E in Rv. rewrite Rv in Rw. by injection Rw.
Qed.
Print Assumptions C28_xdr_int_injective.

(** int8_t -2 between two other words, and a 128 bit value. *)
Example C28_case8 : get_int I8 ([0;0;0;7] ++ put_int I8 254 ++ [9]) 4 = Ok 254 8 /\ put_int I8 254 = [255;255;255;254].
Proof. by vm_compute. Qed.
Example C28_case128 : get_int I128 (put_int I128 (2 ^ 127 + 5)) 0 = Ok (2 ^ 127 + 5) 16.
Proof. by vm_compute. Qed.

(** ** C29: strings and opaque data *)

Theorem C29_xdr_opaque : forall l before after,
  Z.of_nat (length (before ++ put_opaque l ++ after)) < 2 ^ 32 ->
  get_opaque (Z.of_nat (length l)) (before ++ put_opaque l ++ after) (Z.of_nat (length before))
    = Ok l (Z.of_nat (length before + length (put_opaque l))) /\
  (exists k, put_opaque l = l ++ repeat 0 k /\ (k < 4)%nat) /\
  Z.of_nat (length (put_opaque l)) mod 4 = 0.
Proof.
  intros l p q Hl. split; [by apply reads_opaque|].
  pose proof (pad_len_range (Z.of_nat (length l))) as R. split.
  { exists (Z.to_nat (pad_len (Z.of_nat (length l)))). split; [done|lia]. }
  unfold put_opaque. rewrite app_length, repeat_length, Nat2Z.inj_add, Z2Nat.id by lia.
  unfold pad_len. rewrite Zplus_mod_idemp_r.
  rewrite <- Zplus_mod_idemp_l. pose proof (Z.mod_pos_bound (Z.of_nat (length l)) 4).
  replace (_ + _) with 4 by lia. done.
Qed.
Print Assumptions C29_xdr_opaque.

(** A string of any length: flags, length and padded text; it decodes to itself
    and ends on a word boundary. *)
Theorem C29_xdr_string : forall f l before after,
  0 <= f < 256 -> f_ref f = false -> f_null f = false -> Forall (fun c => 0 < c < 256) l ->
  Z.of_nat (length (before ++ put_string f l ++ after)) < 2 ^ 32 ->
  load_string (before ++ put_string f l ++ after) (Z.of_nat (length before))
    = Ok (VStrText f l) (Z.of_nat (length before + length (put_string f l))) /\
  Z.of_nat (length (put_string f l)) mod 4 = 0.
Proof.
  intros f l p q Hf Hr Hn Ht Hl. split; [by apply reads_string|].
  assert (O : Z.of_nat (length ([] ++ put_opaque l ++ [])) < 2 ^ 32).
  { unfold put_string in Hl. rewrite !app_length in *. cbn [length]. lia. }
  destruct (C29_xdr_opaque l [] [] O) as (_ & _ & E).
  unfold put_string. rewrite !app_length.
  change (length (put_int I8 f)) with 4%nat. change (length (put_int I32 _)) with 4%nat.
  rewrite !Nat2Z.inj_add. change (Z.of_nat 4) with 4.
  replace (4 + (4 + Z.of_nat (length (put_opaque l)))) with (Z.of_nat (length (put_opaque l)) + 2 * 4) by lia.
  by rewrite Z.mod_add by lia.
Qed.
Print Assumptions C29_xdr_string.

Example C29_case : put_string 0 [65;66;67;68;69] = [0;0;0;0; 0;0;0;5; 65;66;67;68;69;0;0;0] /\
  load_string ([1] ++ put_string 0 [65;66;67;68;69] ++ [2]) 1 = Ok (VStrText 0 [65;66;67;68;69]) 17.
Proof. by vm_compute. Qed.

(** ** A registry for the examples *)

(** struct node { char * name; union { int16_t i; uint64_t u[2]; } v; char tag[4]; int8_t a[3]; node * next; } *)
Definition ex_node : ty := TStruct 64%nat
  [TStr; TUnion 16%nat [([105], TInt (I16 true)); ([117], TArr true 2 (TInt I64))]; TChars 4; TArr true 3 (TInt I8); TPtr 0].
Definition ex_env : list ty := [ex_node; TChars 4].
Definition ex_leaf : val :=
  VStruct [VStrNull 1; VUnion [105] (VInt 65535); VBytes [65;66;67;68]; VArr [VInt 200]; VPtrRef 2 1].
Definition ex_val : val :=
  VStruct [VStrText 4 [104;105]; VUnion [117] (VArr [VInt 1; VInt (2 ^ 63)]); VBytes [65]; VArr [VInt 1; VInt 2; VInt 3];
           VPtrBlock 4 [ex_leaf; ex_leaf]].

Lemma ex_leaf_wf : wf ex_env ex_node ex_leaf.
Proof.
  constructor. repeat constructor; cbn -[Z.pow]; try lia; try done.
  eapply wf_union; [repeat constructor|done|]. repeat constructor; cbn; lia.
Qed.

Lemma ex_val_wf : wf ex_env ex_node ex_val.
Proof.
  constructor. repeat (apply Forall2_cons; split); [..|constructor].
  - constructor; try done. repeat constructor; lia.
  - eapply wf_union; [repeat constructor|done|]. constructor; cbn -[Z.pow]; try lia. repeat constructor; cbn; lia.
  - repeat constructor; lia.
  - constructor; cbn -[Z.pow]; try lia. repeat constructor; cbn; lia.
  - eapply wf_ptr_block; try done. do 2 (apply Forall_cons; split; [apply ex_leaf_wf|]). constructor.
Qed.

(** ** C53: whole values *)

(** Whatever was saved is loaded back: the same tree of values, flags and
    reference indices, and exactly the bytes that were written are consumed.
    Holds for all types (also recursive through pointers), depths and lengths. *)
Theorem C53_xdr_round_trip : forall env t v before after fuel,
  wf env t v -> (height v <= fuel)%nat ->
  Z.of_nat (length (before ++ save env t v ++ after)) < 2 ^ 32 ->
  load fuel env t (before ++ save env t v ++ after) (Z.of_nat (length before))
    = Ok v (Z.of_nat (length before + length (save env t v))).
Proof. intros env t v p q fuel W Hf Hl. by apply reads_load. Qed.
Print Assumptions C53_xdr_round_trip.

Example C53_case : wf ex_env ex_node ex_val /\
  load 5 ex_env ex_node (save ex_env ex_node ex_val ++ [1;2]) 0 = Ok ex_val 164.
Proof. split; [apply ex_val_wf|]. by vm_compute. Qed.

(** Different values of a type have different encodings. *)
Theorem C53_xdr_injective : forall env t v w,
  wf env t v -> wf env t w -> save env t v = save env t w ->
  Z.of_nat (length (save env t v)) < 2 ^ 32 -> v = w.
Proof.
  intros env t v w Wv Ww E Hl.
  pose proof (C53_xdr_round_trip env t v [] [] (height v + height w) Wv) as Rv.
  pose proof (C53_xdr_round_trip env t w [] [] (height v + height w) Ww) as Rw.
  rewrite <- E in Rw. rewrite app_nil_r in Rv, Rw. cbn [app] in Rv, Rw.
  rewrite Rv in Rw by (done || lia). specialize (Rw ltac:(lia) Hl). by injection Rw.
Qed.
Print Assumptions C53_xdr_injective.

(** False for a resizable pointer with opaque content of size zero: it is saved,
    but the decoder refuses it (src/xdr.c:1022). *)
Theorem C53_zero_opaque_refuted : exists env j f,
  f_ref f = false /\ f_null f = false /\ f_opaque f = true /\ is_Some (env !! j) /\
  forall fuel, load (S fuel) env (TPtr j) (save env (TPtr j) (VPtrOpaque f [])) 0 = Fail.
Proof. exists [TInt I8], 0%nat, 16. by repeat split. Qed.
Print Assumptions C53_zero_opaque_refuted.

(** False for a pointer to several char arrays: the encoding of two texts of a
    valid object makes the decoder call realloc inside of a block
    (src/xdr.c:566-574). *)
Theorem C53_char_array_block_refuted : exists env j n f l l',
  env !! j = Some (TChars n) /\ (length l < n)%nat /\ (length l' < n)%nat /\
  Forall (fun c => 0 < c < 256) l /\ Forall (fun c => 0 < c < 256) l' /\
  forall fuel, load (S fuel) env (TPtr j) (save env (TPtr j) (VPtrBlock f [VBytes l; VBytes l'])) 0 = UB.
Proof.
  exists ex_env, 1%nat, 4%nat, 0, [65], [66]. repeat split; try (cbn; lia); try (repeat constructor; lia).
Qed.
Print Assumptions C53_char_array_block_refuted.

(** ** C30: truncated input *)

(** Any successful decoding, of any bytes (not only of an encoding): stays in the
    buffer, does not depend on what follows the consumed bytes, and fails on
    every input cut inside of them. *)
Theorem C30_xdr_consumed : forall fuel env t b h v h',
  Forall (fun c => 0 <= c < 256) b -> Z.of_nat (length b) < 2 ^ 32 -> 0 <= h <= Z.of_nat (length b) ->
  load fuel env t b h = Ok v h' ->
  h <= h' <= Z.of_nat (length b) /\
  (forall b', Z.of_nat (length b') < 2 ^ 32 -> h' <= Z.of_nat (length b') ->
     take (Z.to_nat h') b' = take (Z.to_nat h') b -> load fuel env t b' h = Ok v h') /\
  (forall n, h <= n < h' -> load fuel env t (take (Z.to_nat n) b) h = Fail).
Proof.
  intros fuel env t b h v h' By Hb Hh E.
  by destruct (good_load fuel env t b h v h' (conj By (conj Hb Hh)) E) as (_ & ?).
Qed.
Print Assumptions C30_xdr_consumed.

(** Every proper prefix of an encoding is rejected. *)
Theorem C30_xdr_truncated : forall env t v n fuel,
  wf env t v -> (height v <= fuel)%nat -> Z.of_nat (length (save env t v)) < 2 ^ 32 ->
  (n < length (save env t v))%nat ->
  load fuel env t (take n (save env t v)) 0 = Fail.
Proof.
  intros env t v n fuel W Hf Hl Hn.
  pose proof (C53_xdr_round_trip env t v [] [] fuel W Hf) as R. rewrite app_nil_r in R. cbn [app] in R.
  specialize (R Hl).
  destruct (C30_xdr_consumed fuel env t (save env t v) 0 v _ (save_bytes _ _ _ W) Hl ltac:(lia) R) as (_ & _ & F).
  specialize (F (Z.of_nat n)). rewrite Nat2Z.id in F. apply F. cbn. lia.
Qed.
Print Assumptions C30_xdr_truncated.

Example C30_case : load 5 ex_env ex_node (take 163 (save ex_env ex_node ex_val)) 0 = Fail /\
  length (save ex_env ex_node ex_val) = 164%nat.
Proof. by vm_compute. Qed.

(** ** C54: arbitrary input *)

(** Whatever bytes the decoder accepts, the result is a value of the type: fields
    and elements complete, numbers in range, texts free of NUL and within their
    arrays, the branch of every union one of its fields.  (Pointers to char arrays
    and resizable arrays of a type of size zero excluded.) *)
Theorem C54_xdr_accepts_values_only : forall env t b fuel v h',
  Forall (fun t => plain t = true /\ forall n, t <> TChars n) env -> plain t = true ->
  Forall (fun c => 0 <= c < 256) b -> Z.of_nat (length b) < 2 ^ 32 ->
  load fuel env t b 0 = Ok v h' -> wf env t v.
Proof.
  intros env t b fuel v h' He Ht By Hb E.
  eapply (load_wf env He fuel t Ht b 0); [|done]. split; [done|lia].
Qed.
Print Assumptions C54_xdr_accepts_values_only.

(** An accepted input and the encoding of its value decode to the same value, even
    if the input is not that encoding (non-zero fill bytes, for instance). *)
Example C54_noncanonical : load 1 [] TStr [0;0;0;0; 0;0;0;1; 65;9;9;9] 0 = Ok (VStrText 0 [65]) 12 /\
  save [] TStr (VStrText 0 [65]) = [0;0;0;0; 0;0;0;1; 65;0;0;0].
Proof. by vm_compute. Qed.
Example C54_unknown_branch : plain (TUnion 4%nat [([105], TInt I32)]) = true /\
  load 2 [] (TUnion 4%nat [([105], TInt I32)]) (put_string 0 [106] ++ [0;0;0;1]) 0 = Fail /\
  load 2 [] (TUnion 4%nat [([105], TInt I32)]) (put_string 0 [105] ++ [0;0;0;1]) 0 = Ok (VUnion [105] (VInt 1)) 16.
Proof. by vm_compute. Qed.

(** For types without char arrays of a fixed size and resizable arrays, no
    sequence of bytes leads to a read outside of the stream or to a write outside
    of the destination. *)
Theorem C54_xdr_safe : forall env t b fuel,
  Forall (fun t => unsized t = true) env -> unsized t = true ->
  Forall (fun c => 0 <= c < 256) b -> Z.of_nat (length b) < 2 ^ 32 ->
  load fuel env t b 0 <> UB.
Proof. intros env t b fuel He Ht By Hb. apply noub_load; [done|done|]. split; [done|lia]. Qed.
Print Assumptions C54_xdr_safe.

(** Decoding of any bytes ends: the recursion is bounded by the depth of the
    types and the length of the input, also for recursive types. *)
Theorem C54_xdr_terminates : forall env t b D fuel,
  Forall (fun t => (tdepth t <= D)%nat) env ->
  Forall (fun c => 0 <= c < 256) b -> Z.of_nat (length b) < 2 ^ 32 ->
  (tdepth t + (D + 1) * length b < fuel)%nat ->
  load fuel env t b 0 <> Oof.
Proof.
  intros env t b D fuel He By Hb Hf.
  assert (Hi : inb b 0) by (split; [done|lia]).
  apply (ends_load env D He fuel t b 0 Hi); [lia|done|lia].
Qed.
Print Assumptions C54_xdr_terminates.

(** struct list { char * name; list * next; } read from garbage. *)
Definition ex_list : ty := TStruct 16%nat [TStr; TPtr 0].
Definition ex_garbage : list Z :=
  [0;0;0;0; 255;255;255;255; 65;66;67;68].
Example C54_case : unsized ex_list = true /\ tdepth ex_list = 1%nat /\ load 30 [ex_list] ex_list ex_garbage 0 = Fail.
Proof. by vm_compute. Qed.

(** False for char arrays: a text which does not fit is written over the end of
    the array, for every size of the array. *)
Theorem C54_char_array_overrun_refuted : forall env n l fuel,
  Forall (fun c => 0 < c < 256) l -> (n < length l)%nat ->
  Z.of_nat (length (save env (TChars (length l)) (VBytes l))) < 2 ^ 32 ->
  load (S fuel) env (TChars n) (save env (TChars (length l)) (VBytes l)) 0 = UB.
Proof.
  intros env n l fuel Ht Hn Hl. cbn -[put_int put_opaque get_int into chars_bytes] in *.
  unfold chars_bytes in *. rewrite Nat.ltb_irrefl in *.
  assert (R : reads (let* m := get_int I32 in get_opaque m) (put_int I32 (Z.of_nat (length l)) ++ put_opaque l) l).
  { pose proof (put_opaque_length l). rewrite app_length in Hl.
    eapply reads_bnd; [apply reads_get_int; cbn -[Z.pow]; lia|]. apply reads_opaque. }
  specialize (R [] []). rewrite app_nil_r in R. cbn [app length] in R. change (Z.of_nat 0) with 0 in R. specialize (R Hl).
  unfold into, bnd in *. destruct (get_int I32 _ 0) as [m h| | |] eqn:E; try done.
  destruct (get_opaque m _ h) as [l' h'| | |] eqn:E'; try done.
  assert (m = Z.of_nat (length l)) as ->.
  { pose proof (put_opaque_length l). rewrite app_length in Hl.
    pose proof (reads_get_int I32 (Z.of_nat (length l)) ltac:(cbn -[Z.pow]; lia) [] (put_opaque l)) as Q.
    cbn [app length] in Q. change (Z.of_nat 0) with 0 in Q. rewrite app_length in Q. rewrite Q in E by lia. by injection E. }
  destruct (Z.ltb_spec (Z.of_nat n) (Z.of_nat (length l))); [done|lia].
Qed.
Print Assumptions C54_char_array_overrun_refuted.

(** False for resizable arrays: the number of elements is that of the stream. *)
Theorem C54_array_overrun_refuted : exists env n b,
  Forall (fun c => 0 <= c < 256) b /\
  forall fuel, load (S (S fuel)) env (TArr true n (TInt I32)) b 0 = UB.
Proof.
  exists [], 1%nat, (save [] (TArr true 2 (TInt I32)) (VArr [VInt 1; VInt 2])).
  split; [|done]. apply save_bytes. constructor; cbn -[Z.pow]; try lia. repeat constructor; cbn; lia.
Qed.
Print Assumptions C54_array_overrun_refuted.

Example C54_overrun_case : load 1 [] (TChars 2) (save [] (TChars 5) (VBytes [65;66;67;68;69])) 0 = UB.
Proof. by vm_compute. Qed.
