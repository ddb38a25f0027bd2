(** C47: comparison and hash of saved structures (src/mr_extra.c:230-513). *)
From stdpp Require Import sets.
From Verif Require Import Base Bitfield HashStr Ptrs DfsProof CmpHash CmpHashSpec CmpHashProof CmpHashTree.
From Verif Require BitfieldProof P_Bitfield.
Local Open Scope Z_scope.

(** C47: for all readable tables the comparison is defined and antisymmetric. *)
Theorem C47_antisymmetric : forall e xs ys, table_ok e xs -> table_ok e ys ->
  exists c c', cmp_structs e xs ys = Some c /\ cmp_structs e ys xs = Some c' /\ Z.sgn c = - Z.sgn c'.
Proof.
  intros e xs ys Hx Hy. exists (tcmp e xs ys), (tcmp e ys xs).
  split; [by apply cmp_structs_ok|]. split; [by apply cmp_structs_ok|]. apply tcmp_anti.
Qed.
Print Assumptions C47_antisymmetric.

(** C47: it answers 0 exactly for structurally equal tables. *)
Theorem C47_zero_iff_equal : forall e xs ys, table_ok e xs -> table_ok e ys ->
  cmp_structs e xs ys = Some 0 <-> same_struct e xs ys.
Proof.
  intros e xs ys Hx Hy. rewrite (cmp_structs_ok e xs ys Hx Hy). rewrite <- (tcmp_zero e xs ys Hx Hy).
  split; [by intros [= ->]|by intros ->].
Qed.
Print Assumptions C47_zero_iff_equal.

(** C47: the value by which a node for a bit-field is compared is the number its
    own bits stand for, extended by the sign if the field is signed, whatever
    surrounds them in memory. *)
Theorem C47_bitfield_value : forall e n d, kind_of (c_type n) = KBitfield -> fd e (c_fdp n) = d ->
  BitfieldProof.bytes (c_data n) -> 0 <= f_shift d < 8 -> 1 <= f_width d <= 128 ->
  f_shift d + f_width d <= 8 * Z.of_nat (length (c_data n)) ->
  exists u, value_of e n = Some (VNum ((if f_signed d then BitfieldProof.sext (f_width d) u else u) mod 2 ^ 128)) /\
    0 <= u < 2 ^ f_width d /\ forall j, 0 <= j < f_width d -> Z.testbit u j = BitfieldProof.membit (c_data n) (f_shift d + j).
Proof.
  intros e n d K <- B Hs Hw Hl. destruct (P_Bitfield.C15_bitfield_read_exact (c_data n) 0 _ _ (f_signed (fd e (c_fdp n))) B Hs Hw) as (v & u & E & Hu & Hb & ->); [done|].
  exists u. unfold value_of, rd_bits. rewrite K, E. done.
Qed.
Print Assumptions C47_bitfield_value.

(** C47: it is transitive when no complex number has NaN as its imaginary part
    only.  Strict steps stay strict. *)
Theorem C47_transitive : forall e xs ys zs a b, table_ok e xs -> table_ok e ys -> table_ok e zs ->
  no_half_nan e xs -> no_half_nan e ys -> no_half_nan e zs ->
  cmp_structs e xs ys = Some a -> cmp_structs e ys zs = Some b -> a <= 0 -> b <= 0 ->
  exists c, cmp_structs e xs zs = Some c /\ c <= 0 /\ (c = 0 <-> a = 0 /\ b = 0).
Proof.
  intros e xs ys zs a b Hx Hy Hz Tx Ty Tz. rewrite !cmp_structs_ok by done. intros [= <-] [= <-] H1 H2.
  exists (tcmp e xs zs). split; [done|].
  assert (forall u v w, table_ok e u -> table_ok e v -> table_ok e w -> no_half_nan e u -> no_half_nan e v -> no_half_nan e w ->
    tcmp e u v <= 0 -> tcmp e v w <= 0 -> tcmp e u w <= 0) as T by (intros u v w; apply tcmp_trans).
  destruct (trans_strict (tcmp e) xs ys zs (tcmp_anti _ _ _) (tcmp_anti _ _ _) (tcmp_anti _ _ _)
    (T xs ys zs Hx Hy Hz Tx Ty Tz) (T ys zs xs Hy Hz Hx Ty Tz Tx) (T zs xs ys Hz Hx Hy Tz Tx Ty) H1 H2) as [S|(S1 & S2 & S3)].
  - split; [lia|]. split; [lia|]. intros [E1 E2].
    apply (tcmp_zero e xs ys Hx Hy) in E1. apply (tcmp_zero e ys zs Hy Hz) in E2. apply (tcmp_zero e xs zs Hx Hz).
    destruct E1 as [E1 L1], E2 as [E2 L2]. split; [|congruence]. clear -E1 E2.
    revert E1 E2. generalize (drop 1 xs) (drop 1 ys) (drop 1 zs). intros us vs ws F. revert ws.
    induction F as [|u v us vs Hu _ IH]; intros ws F2; inversion F2 as [|v' w vs' ws' Hv F3]; subst; constructor; [|by apply IH].
    destruct Hu as [[? ?]|(N1 & D1 & p & q & P1 & P2 & P3)], Hv as [[? ?]|(N2 & D2 & r & s & R1 & R2 & R3)].
    + left. split; done.
    + lia.
    + exfalso. apply N1. unfold described in D1. congruence.
    + right. split; [done|]. split; [congruence|]. exists p, s. split; [done|]. split; [done|]. assert (r = q) as -> by congruence.
      clear -P3 R3. destruct p, q; cbn in *; try done; destruct s; cbn in *; try done; try congruence.
      destruct P3 as [[A B]|[-> ->]]; [|done]. destruct R3 as [[_ C]|[<- <-]]; [by left|by left].
  - split; [lia|]. split; [by intros|]. done.
Qed.
Print Assumptions C47_transitive.

(** C47: structurally equal tables have equal hashes, provided that there is no
    negative zero and the size of each enumeration type is its detected size
    ([hashable]); the nodes may lie anywhere in memory, and references inside of
    the structure, cyclic ones included, are allowed. *)
Theorem C47_equal_hash : forall e xs ys t, table_ok e xs -> table_ok e ys -> same_struct e xs ys ->
  hashable e xs t -> (forall i n, i ∈ nodes t -> ys !! i = Some n -> hash_ok e n) ->
  exists fuel h, forall fuel', (fuel <= fuel')%nat -> hash_struct fuel' e xs = Some h /\ hash_struct fuel' e ys = Some h.
Proof. apply hash_two. Qed.
Print Assumptions C47_equal_hash.

(** C47: without references the hash is the recursive hash of the tree of values. *)
Theorem C47_hash_of_tree : forall e ns t, table_ok e ns -> hashable e ns t ->
  (forall i n, i ∈ nodes t -> ns !! i = Some n -> kind_of (c_type n) = KCompound -> is_ref (link_of n) = false) ->
  exists fuel, forall fuel', (fuel <= fuel')%nat -> hash_struct fuel' e ns = Some (tree_hash e ns t).
Proof. apply hash_tree. Qed.
Print Assumptions C47_hash_of_tree.

(** *** Examples *)
(** Two texts in memory; field 7 is a bit-field of 3 bits at bit 2, field 9 an
    enumeration of 4 bytes, field 10 one whose type has a size of 2 bytes. *)
Definition ex_env : env :=
  Env (fun p => if p =? 4096 then Some [104; 105] else if p =? 8192 then Some [104; 105] else if p =? 12288 then Some [104; 111] else None)
      (fun p => if p =? 7 then FDesc 2 3 true None else if p =? 9 then FDesc 0 0 false (Some 4) else if p =? 10 then FDesc 0 0 false (Some 2) else FDesc 0 0 false None).
Definition node0 : cnode := CNode 0 0 0 0 0 0 0 0 0 0 [].
(** A structure with a string, an int32_t, a double, a complex float, a
    bit-field, an enumeration, a char array and a pointer back to the
    structure.  [p] is the pointer of the string, [k] the int32_t, [r] the last
    byte of the double. *)
Definition ex_table (p k r : Z) : list cnode :=
  [node0;
   CNode 1 22 0 4 0 0 1 0 0 2 [1; 2; 3];
   CNode 2 1 0 0 0 0 2 1 3 0 (num_le 8 p);
   CNode 3 10 0 0 0 0 3 1 4 0 (num_le 4 k);
   CNode 4 18 0 0 0 0 4 1 5 0 [0; 0; 0; 0; 0; 0; 240; r];
   CNode 5 17 0 0 0 0 5 1 6 0 [0; 0; 192; 127; 0; 0; 128; 63];
   CNode 7 26 6 0 0 0 6 1 7 0 [85];
   CNode 9 23 11 0 0 0 7 1 8 0 [3; 0; 0; 0];
   CNode 6 2 0 0 0 0 8 1 9 0 [97; 98; 0; 99];
   CNode 8 28 22 2 0 8 9 1 0 1 (num_le 8 77)].
Definition ex_tree : tree := T 1 [T 2 []; T 3 []; T 4 []; T 5 []; T 6 []; T 7 []; T 8 []; T 9 []].

Lemma ex_cstr : forall p t, text ex_env p = Some t -> Forall (fun c => 1 <= c <= 255) t.
Proof.
  intros p t. cbn. destruct (p =? 4096); [intros [= <-]; repeat constructor; lia|].
  destruct (p =? 8192); [intros [= <-]; repeat constructor; lia|]. destruct (p =? 12288); [intros [= <-]; repeat constructor; lia|done].
Qed.
Ltac table_tac := split; [done|split; [|exact ex_cstr]]; repeat constructor; cbn; try lia; intros; eexists; by vm_compute.
Example C47_table_case : table_ok ex_env (ex_table 4096 5 63) /\ table_ok ex_env (ex_table 8192 5 63) /\
  table_ok ex_env (ex_table 12288 5 63) /\ table_ok ex_env (ex_table 0 4294967295 63).
Proof. repeat match goal with |- _ /\ _ => split; [table_tac|] end. table_tac. Qed.
(** The bits 2 to 4 of 85 are 101, that is -3. *)
Example C47_bitfield_case : let n := CNode 7 26 6 0 0 0 6 1 7 0 [85] in
  kind_of (c_type n) = KBitfield /\ fd ex_env (c_fdp n) = FDesc 2 3 true None /\ BitfieldProof.bytes (c_data n) /\
  value_of ex_env n = Some (VNum (2 ^ 128 - 3)).
Proof. split; [done|]. split; [done|]. split; [repeat constructor; cbn; lia|by vm_compute]. Qed.
(** Equal texts at different places are equal; hi < ho; NULL comes first; -1 < 5;
    the double decides when the others are equal. *)
Example C47_cmp_case :
  cmp_structs ex_env (ex_table 4096 5 63) (ex_table 8192 5 63) = Some 0 /\
  cmp_structs ex_env (ex_table 4096 5 63) (ex_table 12288 5 63) = Some (-6) /\
  cmp_structs ex_env (ex_table 0 5 63) (ex_table 4096 5 63) = Some (-1) /\
  cmp_structs ex_env (ex_table 4096 4294967295 63) (ex_table 8192 5 63) = Some (-1) /\
  cmp_structs ex_env (ex_table 4096 5 63) (ex_table 8192 5 191) = Some 1 /\
  cmp_structs ex_env (ex_table 4096 5 63) (ex_table 4096 5 63 ++ [node0]) = Some (-1).
Proof. repeat split; by vm_compute. Qed.
Example C47_half_nan_case : no_half_nan ex_env (ex_table 4096 5 63) /\ no_half_nan ex_env (ex_table 0 4294967295 63).
Proof.
  split; intros n r Hn; vm_compute in Hn; repeat (apply elem_of_cons in Hn as [->|Hn]; [vm_compute; intros [=]; done|]); by apply elem_of_nil in Hn.
Qed.
Lemma ex_hashable p : In p [4096; 8192] -> hashable ex_env (ex_table p 5 63) ex_tree.
Proof.
  intros Hp. split; [done|]. split; [|split].
  - cbn. repeat match goal with
    | |- exists _, _ => eexists; split; [reflexivity|cbn]
    | |- _ /\ _ => split
    | |- _ => done
    end.
  - apply (bool_decide_unpack (NoDup _)). by vm_compute.
  - intros i n Hi. cbn in Hi.
    repeat (apply elem_of_cons in Hi as [->|Hi]; [cbn; intros [= <-]; split; [done|]; split;
      [cbn; try done|cbn; first [by left|right; repeat first [apply elem_of_list_here|apply elem_of_list_further]]]|]); [..|by apply elem_of_nil in Hi].
    + intros bs. vm_compute. by intros [= <-].
    + split; intros bs; vm_compute; by intros [= <-].
    + by exists 4%nat, false.
Qed.
Example C47_hash_case : hash_struct 40 ex_env (ex_table 4096 5 63) = hash_struct 40 ex_env (ex_table 8192 5 63) /\
  hash_struct 40 ex_env (ex_table 4096 5 63) <> hash_struct 40 ex_env (ex_table 12288 5 63) /\
  exists h, hash_struct 40 ex_env (ex_table 4096 5 63) = Some h.
Proof. split; [by vm_compute|]. split; [by vm_compute|]. eexists. by vm_compute. Qed.
Example C47_equal_hash_case : same_struct ex_env (ex_table 4096 5 63) (ex_table 8192 5 63) /\
  hashable ex_env (ex_table 4096 5 63) ex_tree /\ hashable ex_env (ex_table 8192 5 63) ex_tree.
Proof.
  destruct C47_table_case as (T1 & T2 & _). split; [apply C47_zero_iff_equal; [done|done|by vm_compute]|].
  split; apply ex_hashable; cbn; auto.
Qed.
(** The same structure with a NULL pointer at its end has no references. *)
Definition ex_plain : list cnode := take 9 (ex_table 4096 5 63) ++ [CNode 8 28 22 1 0 8 9 1 0 0 (num_le 8 0)].
Example C47_hash_tree_case :
  (forall i n, i ∈ nodes ex_tree -> ex_plain !! i = Some n -> kind_of (c_type n) = KCompound -> is_ref (link_of n) = false) /\
  hash_struct 40 ex_env ex_plain = Some (tree_hash ex_env ex_plain ex_tree) /\
  tree_hash ex_env ex_plain ex_tree <> 0.
Proof.
  split; [|split; by vm_compute]. intros i n Hi. cbn in Hi.
  repeat (apply elem_of_cons in Hi as [->|Hi]; [cbn; by intros [= <-]|]). by apply elem_of_nil in Hi.
Qed.

(** *** What is false *)
(** Complex numbers: 1 + i NaN and NaN + i compare equal, but 0 lies below the
    first and above the second. *)
Definition cf (bs : list Z) : list cnode := [node0; CNode 5 17 0 0 0 0 1 0 0 0 bs].
Theorem C47_complex_nan_refuted : exists e x y z, table_ok e x /\ table_ok e y /\ table_ok e z /\
  cmp_structs e x y = Some (-1) /\ cmp_structs e y z = Some 0 /\ cmp_structs e x z = Some 1.
Proof.
  exists ex_env, (cf [0; 0; 0; 0; 0; 0; 0; 0]), (cf [0; 0; 128; 63; 0; 0; 192; 127]), (cf [0; 0; 192; 127; 0; 0; 128; 63]).
  split; [table_tac|]. split; [table_tac|]. split; [table_tac|]. repeat split; by vm_compute.
Qed.
Print Assumptions C47_complex_nan_refuted.

(** Zeros: 0.0 and -0.0 compare equal and have different hashes. *)
Definition dbl (bs : list Z) : list cnode := [node0; CNode 4 18 0 0 0 0 1 0 0 0 bs].
Theorem C47_negative_zero_refuted : exists e x y h h', table_ok e x /\ table_ok e y /\
  cmp_structs e x y = Some 0 /\ hash_struct 9 e x = Some h /\ hash_struct 9 e y = Some h' /\ h <> h'.
Proof.
  exists ex_env, (dbl [0; 0; 0; 0; 0; 0; 0; 0]), (dbl [0; 0; 0; 0; 0; 0; 0; 128]). eexists _, _.
  split; [table_tac|]. split; [table_tac|]. split; [by vm_compute|]. split; [by vm_compute|]. split; [by vm_compute|]. by vm_compute.
Qed.
Print Assumptions C47_negative_zero_refuted.

(** Enumerations whose detected type is not an integer type (mr_type_aux 0, see
    src/metaresc.c:1020): different values compare equal, hashes differ. *)
Definition en (bs : list Z) : list cnode := [node0; CNode 10 23 0 0 0 0 1 0 0 0 bs].
Theorem C47_enum_refuted : exists e x y h h', table_ok e x /\ table_ok e y /\
  cmp_structs e x y = Some 0 /\ hash_struct 9 e x = Some h /\ hash_struct 9 e y = Some h' /\ h <> h'.
Proof.
  exists ex_env, (en [1; 0]), (en [2; 0]). eexists _, _.
  split; [table_tac|]. split; [table_tac|]. split; [by vm_compute|]. split; [by vm_compute|]. split; [by vm_compute|]. by vm_compute.
Qed.
Print Assumptions C47_enum_refuted.

(** A table that could not be built (NULL) equals every other one, so that 0 is
    not an equivalence. *)
Theorem C47_no_table_refuted : exists e x y, cmp_structs e x [] = Some 0 /\ cmp_structs e [] y = Some 0 /\ cmp_structs e x y = Some (-1).
Proof. exists ex_env, (en [1; 0]), (ex_table 0 0 0). repeat split; by vm_compute. Qed.
Print Assumptions C47_no_table_refuted.

(** A char array filled up to its size is read beyond its end. *)
Theorem C47_full_char_array_refuted : exists e x, length x = 2%nat /\
  cmp_structs e x x = None /\ hash_struct 9 e x = None.
Proof. exists ex_env, [node0; CNode 6 2 0 0 0 0 1 0 0 0 [97; 98; 99]]. repeat split; by vm_compute. Qed.
Print Assumptions C47_full_char_array_refuted.
