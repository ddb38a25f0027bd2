(** C34, C35, C43, C49, C57, C58: loading a parsed tree into typed memory
    (Load.v). *)
From Verif Require Import Base Load LoadSpec LoadInv LoadRun LoadRefs LoadTop LoadText.
Local Open Scope Z_scope.

(** * A tree for the examples *)
(** struct S { int a; struct S * next; char * name; int m[2][3]; char buf[8]; };
    its fields are named 1 to 5. *)
Definition ex_int : stype := SType (Scalar 4) Void 4 [] None.
Definition ex_next : stype := SType Pointer Struct 8 [] (Some 0%nat).
Definition ex_name : stype := SType Str Void 8 [] None.
Definition ex_m : stype := SType Array (Scalar 4) 24 [2; 3] None.
Definition ex_buf : stype := SType CharArray Void 8 [] None.
Definition ex_fields : list fd :=
  [Fd (Some 1%N) false 0 ex_int; Fd (Some 2%N) false 8 ex_next; Fd (Some 3%N) false 16 ex_name;
   Fd (Some 4%N) false 24 ex_m; Fd (Some 5%N) false 48 ex_buf].
Definition ex_env : list td := [Td Struct 56 ex_fields].
Definition ex_fd : fd := Fd None true 0 (SType Struct Void 56 [] (Some 0%nat)).
Definition ex_leaf (_ : node) (_ : stype) : bool * bool := (true, true).
Definition ex_alloc (_ : nat) : bool := true.
Definition named (n : N) : option (option N * option nat) := Some (Some n, None).
Definition val (i par : nat) (d : option (option N * option nat)) (v : value) : node :=
  Node i par 0 d false false None v [].
Definition comp (i par : nat) (d : option (option N * option nat)) (ks : list node) : node :=
  Node i par 0 d false false None VOther ks.

(** [1] { 7, .m = { { 1, 2, 3 }, { 4, 5 } }, "hi", .name = [2] "xy", .next = { .next = REF 1, CONTENT REF 2 } }. *)
Definition ex_m_node : node :=
  comp 3 1 (named 4)
    [comp 4 3 None [val 5 4 None VOther; val 6 4 None VOther; val 7 4 None VOther];
     comp 8 3 None [val 9 8 None VOther; val 10 8 None VOther]].
Definition ex_buf_node : node := val 11 1 None (VSub [104; 105]).
Definition ex_name_node : node := Node 12 1 2 (named 3) false false None (VSub [120; 121]) [].
Definition ex_ref_node : node := val 15 14 (named 2) (VInt 1).
Definition ex_content_node : node := Node 16 14 0 None false false (Some (true, 2)) VOther [].
Definition ex_next_node : node := comp 13 1 (named 2) [comp 14 13 None [ex_ref_node; ex_content_node]].
Definition ex_root : node :=
  Node 1 0 1 None false false None VOther
    [val 2 1 None VOther; ex_m_node; ex_buf_node; ex_name_node; ex_next_node].
Definition ex_nodes : list node := subtree ex_root.
Definition ex_all : option (bool * state) :=
  load_all ex_env ex_leaf ex_alloc ex_root (0%nat, 0) ex_fd (start 56 ex_nodes).
Definition ex_top : option (bool * state) :=
  load_top ex_env ex_leaf ex_alloc ex_root (0%nat, 0) ex_fd (start 56 ex_nodes).

Ltac each H := repeat (apply elem_of_cons in H as [->|H]); [..|by apply elem_of_nil in H].

Lemma ex_tree : tree_ok ex_nodes ex_root.
Proof.
  split; [done|]. split; [apply (bool_decide_unpack (NoDup _)); by vm_compute|]. split.
  - intros m Hm. cbn in Hm. each Hm; (split; [cbn; lia|]; intros k Hk; cbn in Hk; each Hk; cbn; lia).
  - intros m Hm. cbn in Hm. each Hm; reflexivity.
Qed.

Lemma ex_env_ok : env_ok ex_env.
Proof.
  intros i d Hd f Hf. destruct i; [|done]. injection Hd as <-. cbn in Hf.
  each Hf; cbn; (split; [lia|split; [lia|]]); (split; [cbn; lia|]); cbn.
  - lia.
  - split; [lia|]. split; [|done]. split; [done|]. split; [cbn; lia|]. cbn. intros d [= <-]. cbn. lia.
  - lia.
  - exists 4. split; [done|]. split; [repeat constructor; lia|]. split; [lia|]. split; [done|]. split; [lia|done].
  - done.
Qed.

Lemma ex_union_free : union_free ex_env.
Proof.
  intros i d Hd x y f g Hx Hy Hne. destruct i; [|done]. injection Hd as <-.
  do 5 (destruct x as [|x]; [injection Hx as <-; do 5 (destruct y as [|y]; [injection Hy as <-; cbn; first [done|lia]|]); done|]). done.
Qed.

(** The conditions of the theorems below hold for this tree. *)
Example ex_well_typed : well_typed ex_env ex_nodes ex_root 56 ex_fd.
Proof.
  split; [exact ex_env_ok|]. split; [exact ex_union_free|]. split; [exact ex_tree|]. split; [|done].
  split; [cbn; lia|]. cbn. intros d [= <-]. cbn. lia.
Qed.
Definition ex_state : state := match ex_all with Some (_, s) => s | None => start 0 [] end.
Definition ex_final : state := match ex_top with Some (_, s) => s | None => start 0 [] end.
Example ex_all_ok : ex_all = Some (true, ex_state).
Proof. vm_compute. reflexivity. Qed.
Example ex_top_ok : ex_top = Some (true, ex_final).
Proof. vm_compute. reflexivity. Qed.

(** * Arrays *)
(** In a load that succeeds, the value at position [p0][p1]...[pn] of the text of an array
    is stored as element [p0][p1]...[pn]; there is no value beyond the extents;
    element and array lie inside of the object. *)
Theorem C34_array_elements env leaf alloc nodes root size f s nd a t p k :
  well_typed env nodes root size f ->
  load_top env leaf alloc root (0%nat, 0) f (start size nodes) = Some (true, s) ->
  nd ∈ subtree root -> placed (ra s) nd a t -> s_kind t = Array ->
  length p = length (s_dims t) -> at_path nd p = Some k ->
  Forall2 (fun i d => Z.of_nat i < d) p (s_dims t) /\
  exists T, s_kind T = s_aux t /\ s_td T = s_td t /\ s_size t = count_of (s_dims t) * s_size T /\
    0 <= row_major p (s_dims t) < count_of (s_dims t) /\
    placed (ra s) k (shift a (row_major p (s_dims t) * s_size T)) T /\ inside s a t.
Proof.
  intros Hw Ht Hnd Hp Hk Hl Hpath. destruct (load_top_inv _ _ _ _ _ _ _ _ Ht) as (s0 & Hs & Hra & Hb).
  rewrite Hra in Hp |- *. destruct (placed_inside _ _ _ _ _ _ _ Hw _ Hs _ _ _ Hp) as [Hok Hin].
  pose proof Hok as Hok'. unfold stype_ok in Hok'. rewrite Hk in Hok'. destruct Hok' as (_ & esz & Hne & _ & _ & Hsz & _).
  destruct (array_path _ _ _ _ _ _ _ Hw _ Hs _ _ _ _ p k esz Hnd Hp Hk eq_refl Hsz Hl Hne Hpath) as (HF & T & H1 & H2 & H3 & H4).
  split; [done|]. exists T. split; [done|]. split; [done|]. rewrite H3. split; [done|]. split; [by apply row_major_range|].
  split; [done|]. unfold inside. by rewrite Hb.
Qed.
Print Assumptions C34_array_elements.

(** m[1][1] of the example is the node of the value 5. *)
Example C34_array_elements_example :
  ex_m_node ∈ subtree ex_root /\ placed (ra ex_final) ex_m_node (0%nat, 24) ex_m /\
  at_path ex_m_node [1%nat; 1%nat] = Some (val 10 8 None VOther) /\ row_major [1%nat; 1%nat] [2; 3] = 4.
Proof.
  split; [vm_compute; repeat first [apply elem_of_list_here|apply elem_of_list_further]|].
  split; [|done]. eexists. split; vm_compute; reflexivity.
Qed.

(** * Structures *)
(** The values of a structure go where a C initialiser puts them: a value with
    the name of a field to this field, a value without a name to the field
    after the one of the previous value. *)
Theorem C35_struct_values env leaf alloc nodes root size f s nd a t i d :
  well_typed env nodes root size f ->
  load_top env leaf alloc root (0%nat, 0) f (start size nodes) = Some (true, s) ->
  nd ∈ subtree root -> placed (ra s) nd a t -> s_kind t = Struct -> s_td t = Some i -> env !! i = Some d ->
  (forall g, g ∈ t_fields d -> s_kind (f_ty g) <> NamedAnon) ->
  exists is : list nat, length is = length (n_kids nd) /\
    forall x k, n_kids nd !! x = Some k ->
      exists i g, is !! x = Some i /\ t_fields d !! i = Some g /\ placed (ra s) k (shift a (f_off g)) (f_ty g) /\
        field_for (t_fields d) (n_fd k) (match x with O => None | S y => is !! y end) i g.
Proof.
  intros Hw Ht Hnd Hp Hk Htd Hd Hna. destruct (load_top_inv _ _ _ _ _ _ _ _ Ht) as (s0 & Hs & Hra & Hb).
  rewrite Hra in Hp |- *. pose proof (placed_kids _ _ _ _ _ _ _ Hw _ Hs _ _ _ Hnd Hp) as HK.
  unfold kids_placed in HK. rewrite Hk in HK. destruct HK as (d' & Hd' & HF).
  unfold get_td in Hd'. rewrite Htd in Hd'. cbn [mbind option_bind] in Hd'. rewrite Hd in Hd'. injection Hd' as <-.
  by apply fields_list.
Qed.
Print Assumptions C35_struct_values.

(** The values of the example: field a, .m, the field after it, .name, .next. *)
Example C35_struct_values_example :
  placed (ra ex_final) ex_root (0%nat, 0) (f_ty ex_fd) /\
  (forall g, g ∈ ex_fields -> s_kind (f_ty g) <> NamedAnon) /\
  Forall2 (fun k off => exists t, placed (ra ex_final) k (0%nat, off) t) (n_kids ex_root) [0; 24; 48; 16; 8].
Proof.
  split; [eexists; split; vm_compute; reflexivity|]. split; [intros g Hg; each Hg; done|].
  repeat constructor; eexists _, _; (split; vm_compute; reflexivity).
Qed.

(** A value may have a name that the structure does not have: it is taken for
    the anonymous field that comes next. *)
Definition anon_env : list td :=
  [Td Struct 8 [Fd None true 0 (SType Struct Void 8 [] (Some 1%nat))]; Td Struct 8 [Fd (Some 1%N) false 0 ex_int]].
Definition anon_fd : fd := Fd None true 0 (SType Struct Void 8 [] (Some 0%nat)).
Definition anon_root : node := comp 1 0 None [comp 2 1 (named 9) [val 3 2 (named 1) VOther]].
Lemma anon_well_typed : well_typed anon_env (subtree anon_root) anon_root 8 anon_fd.
Proof.
  split; [|split; [|split; [|split]]].
  - intros i d Hd f Hf. destruct i as [|[|]]; [injection Hd as <-|injection Hd as <-|done]; cbn in Hf; each Hf; cbn.
    + split; [lia|]. split; [lia|]. split; [cbn; lia|]. cbn. intros d [= <-]. cbn. lia.
    + split; [lia|]. split; [lia|]. split; cbn; lia.
  - intros i d Hd x y f g Hx Hy Hne.
    destruct i as [|[|]]; [injection Hd as <-|injection Hd as <-|done]; destruct x as [|x]; try done; by destruct y.
  - split; [done|]. split; [apply (bool_decide_unpack (NoDup _)); by vm_compute|]. split.
    + intros m Hm. cbn in Hm. each Hm; (split; [cbn; lia|]; intros k Hk; cbn in Hk; each Hk; cbn; lia).
    + intros m Hm. cbn in Hm. each Hm; reflexivity.
  - split; [cbn; lia|]. cbn. intros d [= <-]. cbn. lia.
  - done.
Qed.
Theorem C35_unknown_name_refuted :
  exists env leaf alloc nodes root size f s, well_typed env nodes root size f /\
    load_top env leaf alloc root (0%nat, 0) f (start size nodes) = Some (true, s) /\
    exists d k n, get_td env (s_td (f_ty f)) = Some d /\ k ∈ n_kids root /\ n_fd k = Some (Some n, None) /\
      forall g, g ∈ t_fields d -> f_name g <> Some n.
Proof.
  exists anon_env, ex_leaf, ex_alloc, (subtree anon_root), anon_root, 8, anon_fd. eexists.
  split; [exact anon_well_typed|]. split; [vm_compute; reflexivity|].
  eexists _, _, 9%N. split; [reflexivity|]. split; [apply elem_of_list_here|]. split; [reflexivity|].
  intros g Hg. cbn in Hg. each Hg. done.
Qed.
Print Assumptions C35_unknown_name_refuted.

(** * References *)
(** A load whose tree was loaded ends with each reference replaced by the
    address of the object that it names (a content reference: by the pointer
    that this object holds).  Pointers that are no references, and references
    to numbers that no node has, stay as they are. *)
Theorem C43_references env leaf alloc nodes root size f s :
  well_typed env nodes root size f ->
  (forall m, m ∈ nodes -> 0 <= n_id m < 2 ^ 32 - 1) ->
  load_all env leaf alloc root (0%nat, 0) f (start size nodes) = Some (true, s) ->
  one_value s -> content_ok s ->
  exists s', load_top env leaf alloc root (0%nat, 0) f (start size nodes) = Some (true, s') /\
    ra s' = ra s /\ blocks s' = blocks s /\
    forall nd cell t, nd ∈ subtree root -> placed (ra s) nd cell t -> is_ptr (s_kind t) ->
      (asks_none nd -> get_ptr s' cell = get_ptr s cell) /\
      (forall content num, asks nd content num -> num = 0 \/ (forall m, m ∈ nodes -> n_id m <> num) ->
         get_ptr s' cell = get_ptr s cell) /\
      forall num nd' d t', nd' ∈ subtree root -> n_id nd' = num -> num <> 0 ->
        (forall j m, nodes !! j = Some m -> n_id m = num -> S j = n_idx nd') -> placed (ra s) nd' d t' ->
        (asks nd false num -> get_ptr s' cell = Some (To d)) /\
        (asks nd true num -> asks_none nd' -> get_ptr s' cell = get_ptr s d).
Proof.
  intros Hw Hids Hs H1 Hc. pose proof Hw as (W1 & W2 & W3 & W4 & W5).
  destruct (load_top_refs env leaf alloc W1 W2 nodes root size W3 ltac:(by rewrite Forall_forall) f W4 W5 s Hs H1 Hc)
    as (s' & Ht & Hra & Hb & Hres).
  exists s'. split; [done|]. split; [done|]. split; [done|].
  intros nd cell t Hnd Hp Hk.
  destruct (placed_entry _ _ _ _ _ _ _ Hw _ Hs _ _ _ Hnd Hp) as (e & He & En & Ea & Hr). specialize (Hr Hk).
  destruct (placed_room _ _ _ _ _ _ _ Hw _ Hs _ _ _ Hp Hk) as (m & Hm & Hc1 & Hc2).
  specialize (Hres _ _ _ _ He Ea Hk).
  assert (Hget : forall p, holds s' cell p -> get_ptr s' cell = Some p).
  { intros p. apply (holds_get _ _ m); [by rewrite Hb|done|done]. }
  assert (Htot : forall nd d t', placed (ra s) nd d t' -> is_ptr (s_kind t') -> exists p, holds s d p /\ get_ptr s d = Some p).
  { clear -Hw Hs W1 W2. intros nd d t' Hp Hk.
    destruct (placed_room _ _ _ _ _ _ _ Hw _ Hs _ _ _ Hp Hk) as (m & Hm & Hc1 & Hc2).
    destruct (all_run _ _ _ _ _ _ _ Hw _ Hs) as (bty & i & HR & _).
    destruct Hp as (e & He & Ha). destruct (i_at _ _ _ _ (r_inv _ _ _ _ _ _ _ HR) _ _ _ _ He Ha) as (ow & Hpl & _).
    destruct (peek_total _ W1 W2 _ _ _ _ _ _ HR (log s) d t' ow (i_log _ _ _ _ (r_inv _ _ _ _ _ _ _ HR)) Hpl Hk) as [p Hpk].
    exists p. rewrite (holds_get _ _ m) by done. by rewrite (get_ptr_peek _ _ m). }
  assert (Hsame : (forall p, holds s cell p -> holds s' cell p) -> get_ptr s' cell = get_ptr s cell).
  { intros H. destruct (Htot _ _ _ Hp Hk) as (p & Hh & ->). by apply Hget, H. }
  unfold resolved in Hres. split; [|split].
  - intros Hn. rewrite (asks_none_refs _ _ Hn Hr) in Hres. by apply Hsame.
  - intros content num Hq Hu. rewrite (asks_refs _ _ _ _ Hq Hr) in Hres. destruct Hres as [Hres _].
    apply Hsame, Hres. by eapply undefined_names.
  - intros num nd' d t' Hnd' Hid Hn0 Hu Hp'.
    destruct (placed_entry _ _ _ _ _ _ _ Hw _ Hs _ _ _ Hnd' Hp') as (e' & He' & En' & Ea' & Hr').
    pose proof (unique_names _ _ _ _ _ _ _ Hw _ Hs _ _ Hnd' Hid Hn0 Hu) as Hname.
    split; intros Hq.
    + rewrite (asks_refs _ _ _ _ Hq Hr) in Hres. destruct Hres as [_ Hres].
      specialize (Hres _ _ Hname He'). rewrite Ea' in Hres. by apply Hget.
    + intros Hn'. pose proof (asks_refs _ _ _ _ Hq Hr) as Er. rewrite Er in Hres. destruct Hres as [_ Hres].
      specialize (Hres _ _ Hname He'). rewrite Ea' in Hres.
      pose proof (Hc _ _ _ _ _ _ _ _ _ He Ea Hk Er Hname He' Ea') as Hk'.
      specialize (Hres (asks_none_refs _ _ Hn' (Hr' Hk'))).
      destruct (Htot _ _ _ Hp' Hk') as (p & Hh & ->). by apply Hget, Hres.
Qed.
Print Assumptions C43_references.

(** In the example .next->next is the root, and .next->name is .name. *)
Definition cell_of (e : entry) : option addr :=
  match e_at e with Some (a, t) => match s_kind t with Pointer | Str => Some a | _ => None end | None => None end.
Lemma cells_one_value s : NoDup (omap cell_of (ra s)) -> one_value s.
Proof.
  intros HN i j e e' a t t' Hi Hj Ha Ha' Hk Hk'.
  assert (He : cell_of e = Some a) by (unfold cell_of; rewrite Ha; by destruct Hk as [-> | ->]).
  assert (He' : cell_of e' = Some a) by (unfold cell_of; rewrite Ha'; by destruct Hk' as [-> | ->]).
  clear -HN Hi Hj He He'. revert i j Hi Hj. induction (ra s) as [|x l IH]; intros i j Hi Hj; [done|].
  assert (Hin : forall y k, l !! k = Some y -> cell_of y = Some a -> a ∈ omap cell_of l).
  { intros y k Hk Hy. apply elem_of_list_omap. exists y. split; [by eapply elem_of_list_lookup_2|done]. }
  cbn in HN. destruct i as [|i], j as [|j]; cbn in Hi, Hj; [done| | |].
  - injection Hi as ->. rewrite He in HN. apply NoDup_cons in HN as [HN _]. destruct HN. by eapply Hin.
  - injection Hj as ->. rewrite He' in HN. apply NoDup_cons in HN as [HN _]. destruct HN. by eapply Hin.
  - f_equal. apply IH; [|done|done]. destruct (cell_of x); [by apply NoDup_cons in HN as [_ HN]|done].
Qed.
Lemma ex_one_value : one_value ex_state.
Proof. apply cells_one_value. apply (bool_decide_unpack (NoDup _)). by vm_compute. Qed.
Lemma ex_content_ok : content_ok ex_state.
Proof.
  intros i e c tc num j t d ty Hi _ _ Hr Hn Hj Ha.
  assert (num = 2) as ->.
  { clear -Hi Hr. do 17 (destruct i as [|i]; [vm_compute in Hi; injection Hi as <-; vm_compute in Hr; congruence|]).
    vm_compute in Hi. done. }
  assert (j = 12%nat) as ->.
  { destruct Hn as (_ & (x & Hx & Hid) & _). clear -Hx Hid.
    do 17 (destruct j as [|j]; [vm_compute in Hx; injection Hx as <-; vm_compute in Hid; congruence|]). vm_compute in Hx. done. }
  vm_compute in Hj. injection Hj as <-. vm_compute in Ha. injection Ha as <- <-. by right.
Qed.
Example C43_references_example :
  (forall m, m ∈ ex_nodes -> 0 <= n_id m < 2 ^ 32 - 1) /\ one_value ex_state /\ content_ok ex_state /\
  asks ex_ref_node false 1 /\ placed (ra ex_state) ex_root (0%nat, 0) (f_ty ex_fd) /\
  asks ex_content_node true 2 /\ asks_none ex_name_node /\
  get_ptr ex_final (2%nat, 8) = Some (To (0%nat, 0)) /\ get_ptr ex_final (2%nat, 16) = Some (To (1%nat, 0)).
Proof.
  split; [intros m Hm; cbn in Hm; each Hm; cbn; lia|]. split; [exact ex_one_value|]. split; [exact ex_content_ok|].
  split; [split; [done|split; [lia|right; done]]|]. split; [eexists; split; vm_compute; reflexivity|].
  split; [split; [done|split; [lia|left; done]]|]. split; [done|]. split; vm_compute; reflexivity.
Qed.

(** A reference to a number that no node has does not make the load fail. *)
Definition undef_root : node := comp 1 0 None [val 2 1 (named 2) (VInt 7)].
Lemma undef_tree : tree_ok (subtree undef_root) undef_root.
Proof.
  split; [done|]. split; [apply (bool_decide_unpack (NoDup _)); by vm_compute|]. split.
  - intros m Hm. cbn in Hm. each Hm; (split; [cbn; lia|]; intros k Hk; cbn in Hk; each Hk; cbn; lia).
  - intros m Hm. cbn in Hm. each Hm; reflexivity.
Qed.
Theorem C43_undefined_reference_refuted :
  exists env leaf alloc nodes root size f s nd num, well_typed env nodes root size f /\
    load_top env leaf alloc root (0%nat, 0) f (start size nodes) = Some (true, s) /\
    nd ∈ subtree root /\ asks nd false num /\ (exists a t, placed (ra s) nd a t /\ s_kind t = Pointer) /\
    num <> 0 /\ forall m, m ∈ nodes -> n_id m <> num.
Proof.
  exists ex_env, ex_leaf, ex_alloc, (subtree undef_root), undef_root, 56, ex_fd. eexists _, _, 7.
  split.
  { destruct ex_well_typed as (H1 & H2 & _ & H4 & H5). split; [done|]. split; [done|]. split; [exact undef_tree|done]. }
  split; [vm_compute; reflexivity|]. split; [apply elem_of_list_further, elem_of_list_here|].
  split; [split; [done|split; [lia|right; done]]|].
  split; [eexists _, _; split; [eexists; split; vm_compute; reflexivity|done]|].
  split; [done|]. intros m Hm. cbn in Hm. each Hm; done.
Qed.
Print Assumptions C43_undefined_reference_refuted.

(** The largest 32-bit identifier makes the table of identifiers empty, and the
    store to it is undefined. *)
Theorem C43_largest_id_refuted s e :
  (forall x, x ∈ ra s -> 0 <= n_id (e_node x) < 2 ^ 32) -> e ∈ ra s -> n_id (e_node e) = 2 ^ 32 - 1 ->
  set_crossrefs s = None.
Proof.
  intros Hids He Hid. unfold set_crossrefs, make_table.
  destruct (max_id_foldl (ra s) 0) as (_ & Hmax & Hex); [lia|]. fold (max_id (ra s)) in *.
  assert (Em : max_id (ra s) = 2 ^ 32 - 1).
  { rewrite Forall_forall in Hmax. specialize (Hmax e He). rewrite Hid in Hmax.
    destruct Hex as [E|(x & Hx & E)]; [rewrite E in Hmax; lia|]. specialize (Hids x Hx). lia. }
  rewrite Em. replace (replicate _ O) with (@nil nat) by done.
  assert (forall r i, e ∈ r -> fill_table r i [] = None) as ->; [|done|done].
  clear -Hid. induction r as [|x r IH]; intros i Hin; cbn [fill_table]; [by apply elem_of_nil in Hin|].
  destruct (Z.eqb_spec (n_id (e_node x)) 0) as [Ex|_]; [|done].
  apply IH. apply elem_of_cons in Hin as [->|Hin]; [lia|done].
Qed.
Print Assumptions C43_largest_id_refuted.
Example C43_largest_id_example :
  (forall x, x ∈ ra (start 8 [Node 1 0 (2 ^ 32 - 1) None false false None VOther []]) -> 0 <= n_id (e_node x) < 2 ^ 32) /\
  Entry (Node 1 0 (2 ^ 32 - 1) None false false None VOther []) None None ∈
    ra (start 8 [Node 1 0 (2 ^ 32 - 1) None false false None VOther []]).
Proof. split; [intros x Hx; cbn in Hx; each Hx; cbn; lia|apply elem_of_list_further, elem_of_list_here]. Qed.

(** A content reference may name a value that is no pointer: the bytes of this
    value are used as a pointer. *)
Definition conf_root : node :=
  comp 1 0 None [Node 2 1 1 (named 4) false false None VOther [comp 3 2 None [val 4 3 None VOther; val 5 3 None VOther]];
                 Node 6 1 0 (named 3) false false (Some (true, 1)) VOther []].
Theorem C43_content_type_refuted :
  exists env leaf alloc nodes root size f s, well_typed env nodes root size f /\
    load_all env leaf alloc root (0%nat, 0) f (start size nodes) = Some (true, s) /\ one_value s /\
    load_top env leaf alloc root (0%nat, 0) f (start size nodes) = None.
Proof.
  exists ex_env, ex_leaf, ex_alloc, (subtree conf_root), conf_root, 56, ex_fd.
  set (o := load_all _ _ _ _ _ _ _).
  exists (match o with Some (_, s) => s | None => start 0 [] end).
  split.
  { destruct ex_well_typed as (H1 & H2 & _ & H4 & H5). split; [done|]. split; [done|]. split; [|done].
    split; [done|]. split; [apply (bool_decide_unpack (NoDup _)); by vm_compute|]. split.
    - intros m Hm. cbn in Hm. each Hm; (split; [cbn; lia|]; intros k Hk; cbn in Hk; each Hk; cbn; lia).
    - intros m Hm. cbn in Hm. each Hm; reflexivity. }
  split; [vm_compute; reflexivity|]. split; [|vm_compute; reflexivity].
  apply cells_one_value. apply (bool_decide_unpack (NoDup _)). by vm_compute.
Qed.
Print Assumptions C43_content_type_refuted.

(** * Char arrays *)
(** Text for a char array of [s_size ty] bytes is stored inside of it, cut to
    its size, and ends with a zero byte if there is room. *)
Theorem C49_char_array alloc nd a ty s m :
  blocks s !! a.1 = Some (Some m) -> 0 <= a.2 -> 0 <= s_size ty -> a.2 + s_size ty <= m ->
  exists ok s' new, load_char_array alloc nd a ty None s = Some (ok, None, s') /\
    blocks s' = blocks s /\ ra s' = ra s /\ log s' = new ++ log s /\
    Forall (fun x => (st_at x).1 = a.1 /\ a.2 <= (st_at x).2 /\ (st_at x).2 + width (st_what x) <= a.2 + s_size ty) new /\
    (ok = true -> exists t, n_val nd = VSub t \/ n_val nd = VStr (Some t)) /\
    forall t, n_val nd = VSub t \/ n_val nd = VStr (Some t) -> ok = true /\
      (forall i c, Z.of_nat i < s_size ty -> t !! i = Some c -> char_at (log s') (shift a (Z.of_nat i)) = Some c) /\
      (Z.of_nat (length t) < s_size ty -> char_at (log s') (shift a (Z.of_nat (length t))) = Some 0).
Proof. apply char_array_ok. Qed.
Print Assumptions C49_char_array.

(** The node of buf in the example. *)
Example C49_char_array_example :
  blocks (start 56 ex_nodes) !! 0%nat = Some (Some 56) /\ s_size ex_buf = 8 /\
  char_at (log ex_final) (0%nat, 49) = Some 105 /\ char_at (log ex_final) (0%nat, 50) = Some 0.
Proof. repeat split; vm_compute; reflexivity. Qed.

(** Text that is longer than the array is not rejected. *)
Theorem C49_long_text_refuted :
  exists alloc nd a ty s s' t, n_val nd = VSub t /\ s_size ty < Z.of_nat (length t) /\
    load_char_array alloc nd a ty None s = Some (true, None, s') /\ char_at (log s') (0%nat, s_size ty) = None.
Proof.
  exists ex_alloc, (val 1 0 None (VSub [97; 98; 99])), (0%nat, 0), (SType CharArray Void 2 [] None),
    (start 8 [val 1 0 None (VSub [97; 98; 99])]).
  eexists _, _. split; [reflexivity|]. split; [done|]. split; [vm_compute; reflexivity|]. done.
Qed.
Print Assumptions C49_long_text_refuted.

(** Text for a char array that a pointer points to: the array grows if needed;
    nothing is cut. *)
Theorem C49_char_array_behind_pointer alloc nd b cell ty s m t :
  blocks s !! S b = Some (Some (s_size ty)) -> 0 <= s_size ty -> n_val nd = VSub t \/ n_val nd = VStr (Some t) ->
  cell.1 <> S b -> blocks s !! cell.1 = Some (Some m) -> 0 <= cell.2 -> cell.2 + 8 <= m ->
  get_ptr s cell = Some (To (S b, 0)) ->
  exists ok s', load_char_array alloc nd (S b, 0) ty (Some cell) s = Some (ok, None, s') /\
    (ok = false -> blocks s' = <[S b := None]> (blocks s) /\ get_ptr s' cell = Some Null) /\
    (ok = false <-> s_size ty <= Z.of_nat (length t) /\ alloc (length (blocks s)) = false) /\
    (ok = true -> exists b' m', get_ptr s' cell = Some (To (b', 0)) /\ blocks s' !! b' = Some (Some m') /\
       (b' = S b \/ blocks s' !! S b = Some None) /\
       (forall i c, t !! i = Some c -> char_at (log s') (b', Z.of_nat i) = Some c) /\
       char_at (log s') (b', Z.of_nat (length t)) = Some 0 /\ Z.of_nat (length t) < m').
Proof. apply char_pointer_ok. Qed.
Print Assumptions C49_char_array_behind_pointer.
Definition ex_text : state := State [Some 8; Some 2] [Store (0%nat, 0) (WPtr (To (1%nat, 0)))] [].
Example C49_char_array_behind_pointer_example :
  get_ptr ex_text (0%nat, 0) = Some (To (1%nat, 0)) /\
  exists s', load_char_array ex_alloc (val 1 0 None (VSub [97; 98; 99])) (1%nat, 0) (SType CharArray Void 2 [] None)
    (Some (0%nat, 0)) ex_text = Some (true, None, s') /\ get_ptr s' (0%nat, 0) = Some (To (2%nat, 0)).
Proof. split; [done|]. eexists. split; vm_compute; reflexivity. Qed.

(** With several char arrays behind one pointer, the second one that is too
    long for its array is reallocated although it is not the start of a block. *)
Theorem C49_second_char_array_refuted :
  exists alloc nd cell ty s t, n_val nd = VSub t /\ get_ptr s cell = Some (To (1%nat, 0)) /\
    blocks s !! 1%nat = Some (Some (2 * s_size ty)) /\
    load_char_array alloc nd (1%nat, s_size ty) ty (Some cell) s = None.
Proof.
  exists ex_alloc, (val 1 0 None (VSub [97; 98; 99])), (0%nat, 0), (SType CharArray Void 2 [] None),
    (State [Some 8; Some 4] [Store (0%nat, 0) (WPtr (To (1%nat, 0)))] []). eexists.
  split; [reflexivity|]. split; [done|]. split; [done|]. vm_compute. reflexivity.
Qed.
Print Assumptions C49_second_char_array_refuted.

(** * Failed loads *)
(** Nothing is undefined while values are loaded, whatever the text is and
    whichever scalars and allocations fail. *)
Theorem C57_load_defined env leaf alloc nodes root size f :
  well_typed env nodes root size f ->
  exists ok s, load_all env leaf alloc root (0%nat, 0) f (start size nodes) = Some (ok, s).
Proof.
  intros Hw. destruct (run_all env leaf alloc nodes root size f Hw) as (ok & s & bty & i & Hs & _). by exists ok, s.
Qed.
Print Assumptions C57_load_defined.

(** If a value is rejected or an allocation fails, every block that was
    allocated is released exactly once and no pointer is left. *)
Theorem C57_failed_load env leaf alloc nodes root size f s :
  well_typed env nodes root size f ->
  load_all env leaf alloc root (0%nat, 0) f (start size nodes) = Some (false, s) -> one_value s ->
  exists s', load_top env leaf alloc root (0%nat, 0) f (start size nodes) = Some (false, s') /\
    blocks s' !! 0%nat = Some (Some size) /\
    (forall b, (0 < b < length (blocks s'))%nat -> blocks s' !! b = Some None) /\
    forall a x, get_ptr s' a <> Some (To x).
Proof.
  intros (W1 & W2 & W3 & W4 & W5) Hs H1.
  destruct (load_top_fails env leaf alloc W1 W2 nodes root size W3 f W4 W5 s Hs H1) as (s' & Ht & _ & H).
  by exists s'.
Qed.
Print Assumptions C57_failed_load.

(** The example with an unknown name inside of .next, after .name was allocated. *)
Definition fail_root : node :=
  comp 1 0 None [val 2 1 (named 3) (VSub [120; 121]);
                 comp 3 1 (named 2) [comp 4 3 None [val 5 4 (named 3) (VStr (Some [122])); val 6 4 (named 9) VOther]]].
Lemma fail_tree : tree_ok (subtree fail_root) fail_root.
Proof.
  split; [done|]. split; [apply (bool_decide_unpack (NoDup _)); by vm_compute|]. split.
  - intros m Hm. cbn in Hm. each Hm; (split; [cbn; lia|]; intros k Hk; cbn in Hk; each Hk; cbn; lia).
  - intros m Hm. cbn in Hm. each Hm; reflexivity.
Qed.
Example C57_failed_load_example :
  well_typed ex_env (subtree fail_root) fail_root 56 ex_fd /\
  exists s, load_all ex_env ex_leaf ex_alloc fail_root (0%nat, 0) ex_fd (start 56 (subtree fail_root)) = Some (false, s) /\
    one_value s /\ blocks s = [Some 56; Some 3; Some 56; Some 2].
Proof.
  split.
  { destruct ex_well_typed as (H1 & H2 & _ & H4 & H5). split; [done|]. split; [done|]. split; [exact fail_tree|done]. }
  eexists. split; [vm_compute; reflexivity|]. split; [|done].
  apply cells_one_value. apply (bool_decide_unpack (NoDup _)). by vm_compute.
Qed.

(** In a union, a string that was overwritten by another value is released
    although its bytes are no pointer any more. *)
Definition union_env : list td :=
  [Td Struct 8 [Fd (Some 1%N) false 0 ex_name; Fd (Some 2%N) false 0 (SType (Scalar 8) Void 8 [] None)]].
Definition union_fd : fd := Fd None true 0 (SType Struct Void 8 [] (Some 0%nat)).
Definition union_root : node :=
  comp 1 0 None [val 2 1 (named 1) (VSub [120]); val 3 1 (named 2) VOther; val 4 1 (named 9) VOther].
Theorem C57_union_refuted :
  exists env leaf alloc nodes root size f s, env_ok env /\ tree_ok nodes root /\ stype_ok env (f_ty f) /\
    s_size (f_ty f) <= size /\
    load_all env leaf alloc root (0%nat, 0) f (start size nodes) = Some (false, s) /\ one_value s /\
    load_top env leaf alloc root (0%nat, 0) f (start size nodes) = None.
Proof.
  exists union_env, ex_leaf, ex_alloc, (subtree union_root), union_root, 8, union_fd. eexists.
  split; [|split; [|split; [|split; [|split; [|split]]]]].
  - intros i d Hd f Hf. destruct i as [|]; [injection Hd as <-|done]; cbn in Hf; each Hf; cbn;
      (split; [lia|]; split; [lia|]; split; cbn; lia).
  - split; [done|]. split; [apply (bool_decide_unpack (NoDup _)); by vm_compute|]. split.
    + intros m Hm. cbn in Hm. each Hm; (split; [cbn; lia|]; intros k Hk; cbn in Hk; each Hk; cbn; lia).
    + intros m Hm. cbn in Hm. each Hm; reflexivity.
  - split; [cbn; lia|]. cbn. intros d [= <-]. cbn. lia.
  - done.
  - vm_compute. reflexivity.
  - apply cells_one_value. apply (bool_decide_unpack (NoDup _)). by vm_compute.
  - vm_compute. reflexivity.
Qed.
Print Assumptions C57_union_refuted.

(** A pointer that is given two values: if the load fails inside of the first
    one, its block is released and then used. *)
Definition twice_root : node :=
  comp 1 0 None
    [comp 2 1 (named 2) [comp 3 2 None [val 4 3 (named 3) (VSub [120]); val 5 3 (named 9) VOther]];
     comp 6 1 (named 2) [comp 7 6 None []]].
Theorem C57_pointer_twice_refuted :
  exists env leaf alloc nodes root size f s, well_typed env nodes root size f /\
    load_all env leaf alloc root (0%nat, 0) f (start size nodes) = Some (false, s) /\
    load_top env leaf alloc root (0%nat, 0) f (start size nodes) = None.
Proof.
  exists ex_env, ex_leaf, ex_alloc, (subtree twice_root), twice_root, 56, ex_fd. eexists.
  split.
  { destruct ex_well_typed as (H1 & H2 & _ & H4 & H5). split; [done|]. split; [done|]. split; [|done].
    split; [done|]. split; [apply (bool_decide_unpack (NoDup _)); by vm_compute|]. split.
    - intros m Hm. cbn in Hm. each Hm; (split; [cbn; lia|]; intros k Hk; cbn in Hk; each Hk; cbn; lia).
    - intros m Hm. cbn in Hm. each Hm; reflexivity. }
  split; vm_compute; reflexivity.
Qed.
Print Assumptions C57_pointer_twice_refuted.

(** * Pointers *)
(** The values under a pointer are loaded in a row into a block of its own; a
    pointer that is null, a reference or has no values is NULL until the
    references are set. *)
Theorem C58_pointer env leaf alloc nodes root size f s nd cell t :
  well_typed env nodes root size f ->
  load_all env leaf alloc root (0%nat, 0) f (start size nodes) = Some (true, s) -> one_value s ->
  nd ∈ subtree root -> placed (ra s) nd cell t -> s_kind t = Pointer ->
  (n_null nd = true \/ n_kids nd = [] \/ (exists content num, asks nd content num) -> get_ptr s cell = Some Null) /\
  (n_null nd = false -> n_kids nd <> [] -> asks_none nd ->
   exists b T, b <> 0%nat /\ b <> cell.1 /\ get_ptr s cell = Some (To (b, 0)) /\
     s_kind T = s_aux t /\ s_td T = s_td t /\
     forall i k, n_kids nd !! i = Some k ->
       placed (ra s) k (b, Z.of_nat i * s_size T) T /\ inside s (b, Z.of_nat i * s_size T) T).
Proof.
  intros Hw Hs H1 Hnd Hp Hk.
  destruct (pointer_followed _ _ _ _ _ _ _ Hw _ Hs _ _ _ H1 Hnd Hp Hk) as (e & He & En & HF & Hr).
  destruct (placed_room _ _ _ _ _ _ _ Hw _ Hs _ _ _ Hp) as (m & Hm & Hc1 & Hc2); [by left|].
  unfold followed in HF. rewrite En in HF. split.
  - intros Hn. apply (holds_get _ _ m); [done|done|done|].
    destruct Hn as [Hn|[Hn|(content & num & Hn)]].
    + by rewrite Hn in HF.
    + rewrite Hn, orb_true_r in HF. done.
    + rewrite (asks_refs _ _ _ _ Hn (or_intror Hr)), orb_true_r in HF. done.
  - intros Hn Hne Ha. rewrite Hn, (asks_none_refs _ _ Ha (or_intror Hr)) in HF.
    destruct (n_kids nd) as [|k0 ks] eqn:Ek; [done|]. cbn [orb] in HF.
    destruct HF as (b & Hb0 & Hbc & Hh & (m' & Hm') & Hks). cbn zeta in Hks.
    exists b, (f_ty (target_fd env t)). split; [done|]. split; [done|].
    split; [by apply (holds_get _ _ m)|]. split; [done|]. split; [done|].
    intros i k Hi. specialize (Hks i k Hi). split; [done|]. by eapply placed_inside.
Qed.
Print Assumptions C58_pointer.

(** Before references are set no two pointers share a block, and every block
    is reachable from a pointer: nothing leaks. *)
Theorem C58_blocks_owned env leaf alloc nodes root size f s :
  well_typed env nodes root size f ->
  load_all env leaf alloc root (0%nat, 0) f (start size nodes) = Some (true, s) -> one_value s ->
  (forall a b x, get_ptr s a = Some (To x) -> get_ptr s b = Some (To x) -> a = b) /\
  (forall b, (0 < b < length (blocks s))%nat -> exists a, get_ptr s a = Some (To (b, 0))).
Proof. intros Hw Hs H1. exact (blocks_owned _ _ _ _ _ _ _ Hw _ Hs H1). Qed.
Print Assumptions C58_blocks_owned.

Example C58_pointer_example :
  placed (ra ex_state) ex_next_node (0%nat, 8) ex_next /\ n_kids ex_next_node <> [] /\ asks_none ex_next_node /\
  get_ptr ex_state (0%nat, 8) = Some (To (2%nat, 0)) /\ length (blocks ex_state) = 3%nat /\
  placed (ra ex_state) ex_ref_node (2%nat, 8) ex_next /\ get_ptr ex_state (2%nat, 8) = Some Null.
Proof.
  split; [eexists; split; vm_compute; reflexivity|]. split; [done|]. split; [done|]. split; [vm_compute; reflexivity|].
  split; [vm_compute; reflexivity|]. split; [eexists; split; vm_compute; reflexivity|]. vm_compute; reflexivity.
Qed.
