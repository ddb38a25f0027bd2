(** C37: names: hash and comparison agree, and lookups by name are right. *)
From Verif Require Import Base Spec FwFacts ICArrays Hash BTree Interchange P_Interchange HashStr HashStrProof.
Local Open Scope Z_scope.

(** The string a name stands for: [None] is the NULL name. *)
Definition text_of (cstr : Z -> list Z) (x : hstr) : option (list Z) :=
  if str x =? 0 then None else Some (cstr (str x)).

(** A usable name: a C string (bytes 1 to 255 before the terminator), and a cache
    which is empty or holds the hash of this string. *)
Definition usable (cstr : Z -> list Z) (x : hstr) : Prop :=
  (forall s, text_of cstr x = Some s -> Forall (fun c => 1 <= c <= 255) s) /\
  (hval x = 0 \/ hash_str (text_of cstr x) = Some (hval x)).

Lemma usable_ok cstr x : usable cstr x -> hstr_ok cstr x.
Proof.
  intros [H1 H2]. split.
  - unfold at_ptr, is_name. unfold text_of in H1. destruct (str x =? 0); [done|]. by apply H1.
  - destruct H2 as [H2|H2]; [by left|right]. change (at_ptr cstr (str x)) with (text_of cstr x).
    rewrite hash_str_hs in H2. by injection H2.
Qed.
Lemma ok_usable cstr x : hstr_ok cstr x -> usable cstr x.
Proof.
  intros [H1 H2]. split.
  - intros s. unfold text_of. unfold at_ptr, is_name in H1. destruct (str x =? 0); [done|]. by intros [= <-].
  - destruct H2 as [H2|H2]; [by left|right]. change (text_of cstr x) with (at_ptr cstr (str x)).
    by rewrite hash_str_hs, H2.
Qed.

(** The hash of a block is defined, is a 32-bit number and depends on the bytes of
    the block only, for every size and content. *)
Theorem C37_hash_of_content : forall mem size,
  0 <= size <= Z.of_nat (length mem) ->
  exists h, hash_block mem size = Some h /\ 0 <= h < 2 ^ 32 /\
    forall mem', take (Z.to_nat size) mem' = take (Z.to_nat size) mem -> hash_block mem' size = Some h.
Proof.
  intros mem size Hs. destruct (hash_block_ok mem size Hs) as (h & E & Hr).
  exists h. split; [done|]. split; [done|]. intros mem' Ht. rewrite <- E.
  unfold hash_block. apply hash_loop_local. intros i Hi.
  rewrite <- (lookup_take mem' (Z.to_nat size) i), <- (lookup_take mem (Z.to_nat size) i) by lia. by rewrite Ht.
Qed.
Print Assumptions C37_hash_of_content.

Example C37_hash_case : hash_block [109; 114; 95; 105; 99; 95; 116; 0; 7] 7 = Some 3127653968.
Proof. reflexivity. Qed.

(** Comparison of two usable names never goes wrong, leaves both usable, and its
    answer does not depend on the state of the caches. *)
Theorem C37_caches_invisible : forall cstr x y,
  usable cstr x -> usable cstr y ->
  exists c x' y', hstr_cmp cstr x y = Some (c, x', y') /\
    usable cstr x' /\ usable cstr y' /\ text_of cstr x' = text_of cstr x /\ text_of cstr y' = text_of cstr y /\
    exists x'' y'', hstr_cmp cstr (HStr (str x) 0) (HStr (str y) 0) = Some (c, x'', y'').
Proof.
  intros cstr x y Hx%usable_ok Hy%usable_ok.
  destruct (hstr_cmp_ok cstr x y Hx Hy) as (x' & y' & E & Ex & Ey & Hx' & Hy').
  eexists _, x', y'. split; [done|].
  split; [by apply ok_usable|]. split; [by apply ok_usable|].
  unfold text_of. rewrite Ex, Ey. split; [done|]. split; [done|].
  destruct (hstr_cmp_ok cstr (HStr (str x) 0) (HStr (str y) 0)) as (x'' & y'' & E' & _).
  { split; [apply Hx|by left]. } { split; [apply Hy|by left]. }
  by exists x'', y''.
Qed.
Print Assumptions C37_caches_invisible.

(** C37: the comparison of names is a total order, says 0 exactly for equal strings
    (collisions of the hash do not matter), and equal names have equal hashes. *)
Theorem C37_name_order : forall cstr names,
  (forall k, usable cstr (names k)) ->
  three_way (name_cmp cstr names) /\
  (forall x y, name_cmp cstr names x y = 0 <-> text_of cstr (names x) = text_of cstr (names y)) /\
  (forall x y, text_of cstr (names x) = text_of cstr (names y) -> name_hash cstr names x = name_hash cstr names y).
Proof.
  intros cstr names Hu. assert (Hok : forall k, hstr_ok cstr (names k)) by (intros k; by apply usable_ok).
  split; [by apply name_cmp_three_way|]. split.
  - intros x y. by apply name_cmp_zero.
  - intros x y H. apply name_hash_ok; [done|]. by apply name_cmp_zero.
Qed.
Print Assumptions C37_name_order.

(** The same for fields compared by name and type. *)
Theorem C37_name_and_type_order : forall cstr names types,
  (forall k, usable cstr (names k)) -> (forall k, usable cstr (types k)) ->
  let same x y := text_of cstr (names x) = text_of cstr (names y) /\ text_of cstr (types x) = text_of cstr (types y) in
  three_way (name_type_cmp cstr names types) /\
  (forall x y, name_type_cmp cstr names types x y = 0 <-> same x y) /\
  (forall x y, same x y -> name_type_hash cstr names types x = name_type_hash cstr names types y).
Proof.
  intros cstr names types Hn Ht same.
  destruct (C37_name_order cstr names Hn) as (T1 & Z1 & H1).
  destruct (C37_name_order cstr types Ht) as (T2 & Z2 & H2).
  assert (Hz : forall x y, name_type_cmp cstr names types x y = 0 <-> same x y).
  { intros x y. unfold name_type_cmp, same. rewrite <- Z1, <- Z2.
    destruct (Z.eqb_spec (name_cmp cstr names x y) 0); cbn [negb]; intuition lia. }
  split; [|split; [done|]].
  - split.
    + intros x y. unfold name_type_cmp. pose proof (tw_zero _ T1 x y) as Hs.
      pose proof (tw_sym _ T1 x y). pose proof (tw_sym _ T2 x y).
      destruct (Z.eqb_spec (name_cmp cstr names x y) 0), (Z.eqb_spec (name_cmp cstr names y x) 0);
        cbn [negb]; try done; intuition lia.
    + intros x y z. unfold name_type_cmp.
      pose proof (tw_trans _ T1 x y z) as Htr. pose proof (tw_trans _ T2 x y z) as Htr2.
      pose proof (tw_eq_l _ T1 x y z) as Hl. pose proof (tw_eq_r _ T1 y z x) as Hr.
      pose proof (tw_lt_le _ T1 x y z) as Hll. pose proof (tw_le_lt _ T1 x y z) as Hlr.
      destruct (Z.eqb_spec (name_cmp cstr names x y) 0), (Z.eqb_spec (name_cmp cstr names y z) 0),
        (Z.eqb_spec (name_cmp cstr names x z) 0); cbn [negb]; intros; try lia; auto.
  - intros x y [E1 E2]. unfold name_type_hash. by rewrite (H1 x y E1), (H2 x y E2).
Qed.
Print Assumptions C37_name_and_type_order.

Definition first_named (cstr : Z -> list Z) (names : N -> hstr) (tds : list N) (q : N) : option N :=
  List.find (fun x => bool_decide (text_of cstr (names q) = text_of cstr (names x))) tds.

(** Adding to a set keeps the first of each name. *)
Lemma adds_run cmp : three_way cmp -> forall tds s rs s',
  fw_run cmp s (map (fun x => Add x true) tds) rs s' -> s' = fold_left (fw_add1 cmp) tds s.
Proof.
  intros Hc tds. induction tds as [|x tds IH]; intros s rs s' H; cbn in H; inversion H as [|? ? ? ? ? ? ? Hs Hr]; subst.
  - done.
  - cbn [fold_left]. apply IH in Hr as ->. f_equal. unfold fw_add1.
    inversion Hs as [|? ? ? E|? ? E| | | |]; subst; by rewrite E.
Qed.

Lemma find_first cmp (Hc : three_way cmp) tds q :
  fw_find cmp (fw_index cmp tds) q = List.find (fun x => Z.eqb (cmp q x) 0) tds.
Proof.
  destruct (List.find _ tds) as [x|] eqn:E.
  - assert (Hx : exists i, tds !! i = Some x /\ cmp q x = 0 /\ forall j y, (j < i)%nat -> tds !! j = Some y -> cmp q y <> 0).
    { clear Hc. induction tds as [|y tds IH]; [done|]. cbn in E. destruct (Z.eqb_spec (cmp q y) 0) as [E0|E0].
      - injection E as ->. exists O. split; [done|]. split; [done|]. lia.
      - destruct (IH E) as (i & H1 & H2 & H3). exists (S i). split; [done|]. split; [done|].
        intros [|j] z Hj Hz; cbn in Hz; [congruence|]. apply (H3 j); [lia|done]. }
    destruct Hx as (i & H1 & H2 & H3).
    apply (fw_find_unique cmp Hc); [by apply fw_index_wf| |done].
    apply (fw_index_elem cmp Hc). exists i. split; [done|]. intros j y Hj Hy Hxy.
    apply (H3 j y Hj Hy). by apply (tw_eq_trans cmp Hc q x y).
  - apply fw_find_None. intros x Hx. apply (fw_index_elem cmp Hc) in Hx as (i & Hi & _).
    pose proof (List.find_none _ _ E x) as H. cbn in H. apply elem_of_list_lookup_2, elem_of_list_In in Hi.
    specialize (H Hi). lia.
Qed.

(** C37: in a collection of any kind filled with named descriptors, a lookup returns
    the first added descriptor with that name, and nothing when there is none. *)
Theorem C37_lookup_by_name : forall cstr names junk path0 k tds q,
  (forall x, usable cstr (names x)) -> length path0 = PATH ->
  (N.of_nat (length tds) < 2 ^ 29 - 1)%N ->
  exists rs, kind_run (name_cmp cstr names) (name_hash cstr names) junk path0 k
               (map (fun x => Add x true) tds ++ [Find q]) = Some rs /\
    last rs = Some (RKey (first_named cstr names tds q)).
Proof.
  intros cstr names junk path0 k tds q Hu Hp Hl.
  destruct (C37_name_order cstr names Hu) as (Hc & Hz & Hh).
  destruct (kind_run_fw (name_cmp cstr names) (name_hash cstr names) junk path0 k
              (map (fun x => Add x true) tds ++ [Find q])) as (rs & s & E & F); [done| |done| |].
  { intros x y Hxy. apply Hh. by apply Hz. }
  { rewrite app_length, map_length. cbn. lia. }
  exists rs. split; [done|].
  assert (forall ops s0, fw_run (name_cmp cstr names) s0 (ops ++ [Find q]) rs s ->
            exists rs1 s1, fw_run (name_cmp cstr names) s0 ops rs1 s1 /\
              rs = rs1 ++ [RKey (fw_find (name_cmp cstr names) s1 q)]) as Hsplit.
  { clear. intros ops. revert rs. induction ops as [|o ops IH]; intros rs s0 H; cbn in H.
    - inversion H as [|? ? r s1 ? rs' ? Hs Hr]; subst. inversion Hr; subst. inversion Hs; subst.
      exists [], s. split; [constructor|done].
    - inversion H as [|? ? r s1 ? rs' ? Hs Hr]; subst. destruct (IH _ _ Hr) as (rs1 & s2 & H1 & ->).
      exists (r :: rs1), s2. split; [by econstructor|done]. }
  destruct (Hsplit _ _ F) as (rs1 & s1 & F1 & ->). rewrite last_snoc. do 2 f_equal.
  apply (adds_run _ Hc) in F1 as ->.
  change (fold_left (fw_add1 (name_cmp cstr names)) tds []) with (fw_index (name_cmp cstr names) tds).
  rewrite (find_first _ Hc). unfold first_named.
  clear -Hz. induction tds as [|x tds IH]; [done|]. cbn.
  destruct (Z.eqb_spec (name_cmp cstr names q x) 0) as [E|E].
  - rewrite bool_decide_true; [done|]. by apply Hz.
  - rewrite bool_decide_false; [done|]. intros H. apply E. by apply Hz.
Qed.
Print Assumptions C37_lookup_by_name.

(** Keys 10, 20 and 30 name "ab", "c" and again "ab" (another copy of the string,
    cache filled); 40 asks for "ab" and 50 for a name nobody has. *)
Definition ex_cstr (p : Z) : list Z :=
  if p =? 1 then [97; 98] else if p =? 2 then [99] else if p =? 3 then [97; 98] else [122].
Definition ex_names (k : N) : hstr :=
  match k with
  | 10%N => HStr 1 0 | 20%N => HStr 2 0 | 30%N => HStr 3 25185 | 40%N => HStr 3 0 | 50%N => HStr 4 0 | _ => HStr 0 0
  end.
Example C37_case_usable : forall k, usable ex_cstr (ex_names k).
Proof.
  assert (H : forall x, (str x = 0 \/ str x = 1 \/ str x = 2 \/ str x = 3 \/ str x = 4) ->
     (hval x = 0 \/ (str x = 3 /\ hval x = 25185)) -> usable ex_cstr x).
  { intros [s h] Hs Hh. cbn in Hs, Hh. split.
    - intros t. unfold text_of, ex_cstr. cbn.
      destruct Hs as [->|[->|[->|[->| ->]]]]; cbn; intros [= <-]; repeat constructor; lia.
    - destruct Hh as [->|[-> ->]]; [by left|]. right. reflexivity. }
  intros k. apply H; unfold ex_names; repeat case_match; cbn; lia.
Qed.
Example C37_case :
  first_named ex_cstr ex_names [20; 10; 30]%N 40%N = Some 10%N /\ first_named ex_cstr ex_names [20; 10; 30]%N 50%N = None /\
  kind_run (name_cmp ex_cstr ex_names) (name_hash ex_cstr ex_names) 0%N (replicate PATH (0%nat, false)) KHash
    [Add 20 true; Add 10 true; Add 30 true; Find 40]%N
  = Some [RKey (Some 20%N); RKey (Some 10%N); RKey (Some 10%N); RKey (Some 10%N)].
Proof. split_and!; vm_compute; reflexivity. Qed.
