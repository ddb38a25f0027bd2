(** The result of mr_save (src/mr_save.c:1553-1612): tree, meaning of its nodes, sharing. *)
From stdpp Require Import sets.
From Verif Require Import Base Ptrs ChildrenProof DfsProof P_Ptrs Save SaveForest SaveSpec SaveInv SaveSteps SaveTop SavePost SaveTree.
Local Open Scope Z_scope.

Lemma Forall2_kids {A} (P : nat -> A -> Prop) (Q : tree -> Prop) (X : A -> tree -> Prop) ks : forall l,
  Forall2 P (map root ks) l -> Forall Q ks -> (forall c f t, t ∈ ks -> root t = c -> P c f -> Q t -> X f t) -> Forall2 X l ks.
Proof.
  induction ks as [|t ks IH]; intros l H F G; inversion H; subst; constructor.
  - inversion F; subst. eapply G; [left|done|done|done].
  - inversion F; subst. apply IH; [done|done|]. intros c f u Hu. apply G. by right.
Qed.

Section Finish.
  Context (W : world) (data : Z) (g : fd) (s0 : sst) (K : nat -> list nat) (D : nat -> fd).
  Hypothesis L : FI W data g s0 K D (length (s_info s0)).

  Let I := l_inv _ _ _ _ _ _ _ L.
  Let R := v_for _ _ _ _ _ I.
  Lemma f_len : length (s_info s0) = length (lns s0).
  Proof. exact (v_len _ _ _ _ _ I). Qed.
  Lemma f_has i : (i < length (lns s0))%nat -> exists x n, s_info s0 !! i = Some x /\ lns s0 !! i = Some n.
  Proof.
    intros Li. destruct (lookup_lt_is_Some_2 _ _ Li) as [n En]. rewrite <- f_len in Li. destruct (lookup_lt_is_Some_2 _ _ Li) as [x Ex]. eauto.
  Qed.
  Lemma f_lt i x : s_info s0 !! i = Some x -> (i < length (lns s0))%nat.
  Proof. intros E. rewrite <- f_len. by eapply lookup_lt_Some. Qed.

  Lemma f_pointer i x n : i <> 0%nat -> s_info s0 !! i = Some x -> lns s0 !! i = Some n -> i_type x = T_POINTER ->
    if followed x then K i <> [] \/ is_ref n = true else K i = [] /\ is_ref n = false /\ first_child n = 0%nat.
  Proof.
    intros Hi Ex En Tp. destruct (l_before _ _ _ _ _ _ _ L i x Hi Ex Tp) as [B1 B2]; [by eapply lookup_lt_Some|].
    destruct (followed x).
    - destruct (B2 eq_refl) as [H|(n' & En' & H)]; [by left|right]. rewrite En in En'. by injection En' as <-.
    - assert (~ done_at s0 K i) as Nd by (intros H; by apply B1 in H).
      assert (K i = []) as Ki by (destruct (K i) eqn:Ek; [done|]; exfalso; apply Nd; left; by rewrite Ek).
      assert (is_ref n = false) as Rn by (destruct (is_ref n) eqn:Er; [|done]; exfalso; apply Nd; right; by exists n).
      split; [done|]. split; [done|]. pose proof (fo_kids _ _ R _ _ En) as Hl. rewrite Rn, Ki in Hl. exact Hl.
  Qed.
  Lemma f_void i x n : i <> 0%nat -> s_info s0 !! i = Some x -> lns s0 !! i = Some n -> voidp x = true ->
    K i = [] /\ is_ref n = false /\ first_child n = 0%nat.
  Proof.
    intros Hi Ex En V. unfold voidp in V. apply andb_prop in V as [V Nn]. apply andb_prop in V as [Tp Va]. apply Z.eqb_eq in Tp.
    pose proof (f_pointer i x n Hi Ex En Tp) as H. assert (followed x = false) as Ff; [|by rewrite Ff in H].
    unfold followed. destruct (i_aux x =? T_NONE); [by rewrite andb_false_r|]. cbn in Va. rewrite Va. cbn. by rewrite andb_false_r.
  Qed.

  (** Contents of strings. *)
  Lemma f_string r : in_string s0 r = true -> exists q xq xr, q <> 0%nat /\ parf (lns s0) r = q /\ s_info s0 !! q = Some xq /\ s_info s0 !! r = Some xr /\
    i_type xq = T_STRING /\ i_type xr = T_CHAR_ARRAY /\ w_ptr W (i_data xq) = Some (i_data xr) /\ i_data xr <> 0 /\ K q = [r] /\ K r = [] /\ r <> 0%nat.
  Proof.
    unfold in_string. intros H. apply andb_prop in H as [Hq Ht]. destruct (Nat.eqb_spec (parf (lns s0) r) 0) as [|Nq]; [done|].
    destruct (s_info s0 !! parf (lns s0) r) as [xq|] eqn:Eq; [|done]. apply Z.eqb_eq in Ht.
    assert (r <> 0%nat) as Nr by (intros ->; by rewrite (parf_zero _ _ R) in Nq).
    assert (r < length (lns s0))%nat as Lr.
    { unfold parf in Nq. destruct (lns s0 !! r) eqn:E; [by eapply lookup_lt_Some|done]. }
    assert (r ∈ K (parf (lns s0) r)) as Hk by (by apply (fo_in _ _ R)).
    destruct (v_one _ _ _ _ _ I _ _ Nq Eq) as [K0|(c & xc & Kc & Ec & (C1 & C2 & C3) & _)]; [by rewrite Ht|by rewrite K0 in Hk; apply elem_of_nil in Hk|].
    rewrite Kc in Hk. apply elem_of_list_singleton in Hk. subst c. rewrite Ht in C3. cbn in C3.
    exists (parf (lns s0) r), xq, xc. do 9 (split; [done|]). split; [|done].
    pose proof (proj2 (v_node _ _ _ _ _ I r xc Nr ltac:(set_solver) Ec)) as H. unfold node_body in H. by rewrite C3 in H.
  Qed.
  Lemma f_not_string i x : s_info s0 !! i = Some x -> i_type x <> T_CHAR_ARRAY -> in_string s0 i = false.
  Proof. intros E T. destruct (in_string s0 i) eqn:S'; [|done]. destruct (f_string i S') as (q & xq & xr & _ & _ & _ & Er & _ & Tr & _). congruence. Qed.

  Definition K2 (i : nat) : list nat := match s_info s0 !! i with Some x => if i_type x =? T_STRING then [] else K i | None => [] end.
  Lemma K2_sub p : K2 p = K p \/ K2 p = [].
  Proof. unfold K2. destruct (s_info s0 !! p) as [x|]; [|by right]. destruct (i_type x =? T_STRING); [by right|by left]. Qed.

  Lemma f_refd i n : lns s0 !! i = Some n -> is_ref n = true -> refd s0 (first_child n).
  Proof.
    intros En Rn. pose proof (lookup_lt_Some _ _ _ En) as Li. destruct (f_has i Li) as (x & n' & Ex & En'). rewrite En in En'. injection En' as <-.
    destruct (v_ref _ _ _ _ _ I i x n Ex En Rn) as (_ & _ & xr & nr & _ & Er & Rr & _). by exists nr.
  Qed.
  Lemma f_cref i x : i <> 0%nat -> s_info s0 !! i = Some x -> i_cref x = false.
  Proof. intros Hi Ex. by destruct (v_id _ _ _ _ _ I i x Hi Ex) as (_ & _ & _ & _ & C & _). Qed.

  Lemma f_post s1 : post_loop W (length (s_info s0) - 1)%nat s0 1%nat = Some s1 -> PR W s0 s1 (length (s_info s0)).
  Proof.
    intros H. pose proof (fo_len _ _ R) as L1. rewrite <- f_len in L1. replace (length (s_info s0)) with (1 + (length (s_info s0) - 1))%nat by lia.
    assert (forall i x n, i <> 0%nat -> s_info s0 !! i = Some x -> lns s0 !! i = Some n -> voidp x = true -> is_ref n = false /\ first_child n = 0%nat) as V0.
    { intros i x n Hi Ex En V. by destruct (f_void i x n Hi Ex En V) as (_ & ? & ?). }
    apply (post_ok W s0 f_len (parf_lt _ _ R) (v_chain _ _ _ _ _ I) f_cref V0 f_refd (length (s_info s0) - 1)%nat s0 1%nat s1 (PR_init W s0 f_len (parf_lt _ _ R) (v_chain _ _ _ _ _ I) f_cref V0 f_refd) ltac:(done) ltac:(lia) H).
  Qed.

  Section Result.
    Context (s1 : sst).
    Hypothesis P : PR W s0 s1 (length (s_info s0)).

    Lemma f_node i x0 n0 : i <> 0%nat -> s_info s0 !! i = Some x0 -> lns s0 !! i = Some n0 -> exists x n,
      s_info s1 !! i = Some x /\ lns s1 !! i = Some n /\ sameI x0 x /\ sameL n0 n /\ fin W s0 s1 x0 n0 x n.
    Proof.
      intros Hi Ex En. destruct (p_info _ _ _ _ P _ _ _ Ex En) as (x & n & E1 & E2 & S1 & S2 & _ & F). exists x, n. do 4 (split; [done|]).
      apply F; [done|by eapply lookup_lt_Some].
    Qed.
    Lemma f_back i x : s_info s1 !! i = Some x -> exists x0, s_info s0 !! i = Some x0 /\ sameI x0 x.
    Proof.
      intros E. assert (i < length (lns s0))%nat as Li by (rewrite <- f_len, <- (p_len _ _ _ _ P); by eapply lookup_lt_Some).
      destruct (f_has i Li) as (x0 & n0 & Ex & En). destruct (p_info _ _ _ _ P _ _ _ Ex En) as (x' & n & E1 & _ & S1 & _). exists x0. split; [done|]. rewrite E in E1. by injection E1 as <-.
    Qed.

    Lemma f_links i : i <> 0%nat -> (i < length (lns s0))%nat -> exists n, lns s1 !! i = Some n /\ parent n = parf (lns s0) i /\
      if is_ref n then K2 i = [] else linked (lns s1) (first_child n) (K2 i).
    Proof.
      intros Hi Li. destruct (f_has i Li) as (x0 & n0 & Ex & En). destruct (f_node i x0 n0 Hi Ex En) as (x & n & E1 & E2 & S1 & (Pn & _) & F).
      exists n. split; [done|]. split; [by rewrite (parf_lu _ _ _ En)|]. unfold K2. rewrite Ex.
      pose proof (fo_kids _ _ R _ _ En) as Hk. unfold fin in F. destruct (voidp x0) eqn:V.
      - destruct (f_void _ _ _ Hi Ex En V) as (K0 & _ & _). rewrite K0.
        destruct F as (_ & p & _ & [[-> _]|(-> & Ff & _)]); [by destruct (i_type x0 =? T_STRING)|]. rewrite Ff. by destruct (i_type x0 =? T_STRING).
      - destruct F as [_ F]. destruct (is_ref n0) eqn:R0.
        + destruct F as [-> _]. rewrite Hk. by destruct (i_type x0 =? T_STRING).
        + destruct F as (-> & _ & Ff). rewrite Ff. destruct (i_type x0 =? T_STRING); [done|].
          eapply linked_frame; [|exact Hk]. intros c m1 Hc Em1. destruct (kid_lt _ _ R _ _ Hc) as (C0 & Cl & _).
          destruct (f_has c Cl) as (y0 & m0 & Ey & Em). destruct (f_node c y0 m0 C0 Ey Em) as (y & m & _ & Em' & _ & (_ & Nx & _) & _).
          rewrite Em in Em1. injection Em1 as <-. eauto.
    Qed.

    Lemma f_tree : exists ks, tree_at (lns s1) 0 0 (T 1 ks) /\ NoDup (nodes (T 1 ks)) /\ shaped K2 (T 1 ks) /\
      (forall i, i ∈ nodes (T 1 ks) -> i <> 0%nat /\ (i < length (lns s0))%nat /\ in_string s0 i = false) /\
      (forall i, i <> 0%nat -> (i < length (lns s0))%nat -> in_string s0 i = false -> i ∈ nodes (T 1 ks)).
    Proof.
      destruct (l_root _ _ _ _ _ _ _ L) as (_ & x1 & Ex1 & _). pose proof (f_lt _ _ Ex1) as L1.
      pose proof (l_par _ _ _ _ _ _ _ L) as P1.
      destruct (build (lns s0) (lns s1) K K2 R K2_sub f_links (length (lns s0)) 1%nat 0%nat) as (t & n & Rt & Sh & En & At & Nd & An); [done|done|by constructor|done|].
      destruct t as [i ks]. cbn in Rt. subst i. exists ks. rewrite P1 in At.
      destruct (f_has 1 L1) as (x0 & n0 & Ex0 & En0). destruct (f_node 1%nat x0 n0 ltac:(done) Ex0 En0) as (x & n' & _ & En' & _ & (_ & Nx & _) & _).
      rewrite En in En'. injection En' as <-. destruct (fo_root _ _ R 1%nat n0) as [_ N0]; [done|done|by rewrite <- (parf_lu _ _ _ En0)|].
      rewrite Nx, N0 in At. do 3 (split; [done|]).
      assert (forall i, i <> 0%nat -> (i < length (lns s0))%nat -> in_string s0 i = false -> i ∈ nodes (T 1 ks)) as Cp.
      { intros i Hi Li. destruct (fo_lev _ _ R i Hi Li) as (k & Lv). revert Hi Li. induction Lv as [i Z|i k Np _ IH]; intros Hi Li Hs.
        - destruct (f_has i Li) as (y & m & Ey & Em). destruct (fo_root _ _ R i m Hi Em) as [-> _]; [by rewrite <- (parf_lu _ _ _ Em)|]. cbn. left.
        - assert (i ∈ K (parf (lns s0) i)) as Hk by (by apply (fo_in _ _ R)).
          pose proof (parf_lt _ _ R i) as Lp. destruct (f_has _ Lp) as (y & m & Ey & Em).
          eapply shaped_closed; [exact Sh| |].
          + apply IH; [done|done|]. destruct (in_string s0 (parf (lns s0) i)) eqn:E; [|done]. destruct (f_string _ E) as (q & xq & xr & _ & _ & _ & _ & _ & _ & _ & _ & _ & K0 & _).
            rewrite K0 in Hk. by apply elem_of_nil in Hk.
          + unfold K2. rewrite Ey. unfold in_string in Hs. rewrite Ey in Hs. destruct (Nat.eqb_spec (parf (lns s0) i) 0) as [|_]; [done|]. cbn in Hs. by rewrite Hs. }
      split; [|done].
      (* nodes of the tree are not contents of strings *)
      intros i Hi. destruct (An i Hi) as (_ & I0 & Il). do 2 (split; [done|]).
      assert (forall t, shaped K2 t -> forall j, j ∈ nodes t -> j = root t \/ exists p, j ∈ K2 p) as Pa.
      { clear. induction t as [i ks IH] using tree_ind'. rewrite shaped_eq. intros [Rk Sk] j Hj. cbn in Hj. apply elem_of_cons in Hj as [-> |Hj]; [by left|]. right.
        assert (forall t, t ∈ ks -> root t ∈ K2 i) as Hr by (intros t Ht; rewrite <- Rk; by apply elem_of_list_fmap_1). clear Rk.
        induction ks as [|t ks IHk]; [by apply elem_of_nil in Hj|]. cbn in Hj. inversion IH as [|? ? I1 I2]; subst. inversion Sk as [|? ? S1 S2]; subst.
        apply elem_of_app in Hj as [Hj|Hj]; [|apply IHk; [done|done|done|intros; apply Hr; by right]].
        destruct (I1 S1 j Hj) as [-> |?]; [|done]. exists i. apply Hr. left. }
      destruct (in_string s0 i) eqn:E; [|done]. destruct (f_string _ E) as (q & xq & xr & Nq & Pq & Eq & _ & Tq & _).
      destruct (Pa _ Sh i Hi) as [-> |(p & Hp)]; [cbn [root] in Pq; congruence|]. unfold K2 in Hp.
      assert (p = q) as -> by (destruct (K2_sub p) as [E2|E2]; unfold K2 in E2; rewrite E2 in Hp; [by destruct (kid_lt _ _ R _ _ Hp) as (_ & _ & _ & _ & <-)|by apply elem_of_nil in Hp]).
      rewrite Eq, Tq in Hp. by apply elem_of_nil in Hp.
    Qed.

    (** The numbers are in the table. *)
    Context (ks : list tree) (ns : list node) (c : nat).
    Notation t := (T 1 ks).
    Notation st := (SSt (Ptrs ns c) (s_info s1) (s_heads s1)).
    Hypothesis Sh : shaped K2 t.
    Hypothesis Tin : forall i, i ∈ nodes t -> i <> 0%nat /\ (i < length (lns s0))%nat /\ in_string s0 i = false.
    Hypothesis Tall : forall i, i <> 0%nat -> (i < length (lns s0))%nat -> in_string s0 i = false -> i ∈ nodes t.
    Hypothesis Nin : forall k j n, nodes t !! k = Some j -> lns s1 !! j = Some n -> ns !! j = Some (set_pub_idx n (S k)).

    Lemma g_node i x0 n0 : i ∈ nodes t -> s_info s0 !! i = Some x0 -> lns s0 !! i = Some n0 -> exists x n,
      s_info st !! i = Some x /\ lns st !! i = Some n /\ sameI x0 x /\ pub_idx n <> 0%nat /\ (refd s1 i -> referenced n = true) /\ fin W s0 s1 x0 n0 x n /\ parent n = parf (lns s0) i.
    Proof.
      intros Hi Ex En. destruct (Tin i Hi) as (I0 & _). destruct (f_node i x0 n0 I0 Ex En) as (x & n & E1 & E2 & S1 & (Pn & _) & F).
      apply elem_of_list_lookup in Hi as [k Hk]. exists x, (set_pub_idx n (S k)). split; [done|]. split; [by apply Nin|]. split; [done|]. split; [done|].
      split; [|split; [exact F|cbn; by rewrite Pn, (parf_lu _ _ _ En)]]. intros (n' & En' & Rn'). rewrite E2 in En'. by injection En' as <-.
    Qed.
    Lemma g_target r xr0 : s_info s0 !! r = Some xr0 -> r <> 0%nat -> in_string s0 r = false -> refd s1 r -> exists xr, target st r xr /\ sameI xr0 xr.
    Proof.
      intros E R0 Hs Hr. pose proof (f_lt _ _ E) as Lr. destruct (f_has r Lr) as (y & nr & Ey & En). rewrite E in Ey. injection Ey as <-.
      destruct (g_node r xr0 nr (Tall r R0 Lr Hs) E En) as (x & n & E1 & E2 & S1 & Pn & Rn & _ & Pa). exists x. split; [|done]. split; [done|]. exists n. do 3 (split; [by auto|]). split; [done|]. rewrite Pa. intros Np q Eq Tq.
      destruct (f_back _ _ Eq) as (q0 & Eq0 & (_ & Tq0 & _)). unfold in_string in Hs. rewrite Eq0, <- Tq0, Tq in Hs. destruct (Nat.eqb_spec (parf (lns s0) r) 0); done.
    Qed.

    (** Where a reference leads to. *)
    Lemma g_points x n r xr0 : s_info s0 !! r = Some xr0 -> r <> 0%nat -> points s0 s1 x n r ->
      if in_string s0 r then i_type xr0 = T_CHAR_ARRAY /\ i_cref x = true /\ exists xq, target st (first_child n) xq /\ i_type xq = T_STRING /\ w_ptr W (i_data xq) = Some (i_data xr0) /\ exists nq, lns st !! first_child n = Some nq /\ is_ref nq = false
      else i_cref x = false /\ first_child n = r /\ exists xr, target st r xr /\ sameI xr0 xr.
    Proof.
      intros E R0 H. unfold points in H. destruct (in_string s0 r) eqn:Hs.
      - destruct H as (F & C & Rd). destruct (f_string r Hs) as (q & xq & xr & Nq & Pq & Eq & Er & Tq & Tr & Wq & _ & Kq & _). rewrite E in Er. injection Er as <-.
        rewrite Pq in F, Rd. split; [done|]. split; [done|]. destruct (g_target q xq Eq Nq) as (x' & T' & S1); [eapply f_not_string; [done|by rewrite Tq]|done|].
        exists x'. rewrite F. split; [done|]. destruct S1 as (-> & -> & _). split; [done|]. split; [done|].
        pose proof (f_lt _ _ Eq) as Lq. destruct (f_has q Lq) as (xq' & nq & Eq' & Enq). rewrite Eq in Eq'. injection Eq' as <-.
        destruct (g_node q xq nq) as (y & m & _ & Em & _ & _ & _ & Fq & _); [apply Tall; [done|done|eapply f_not_string; [done|by rewrite Tq]]|done|done|].
        exists m. split; [done|]. unfold fin, voidp in Fq. rewrite Tq in Fq. change (T_STRING =? T_POINTER) with false in Fq. cbn [andb] in Fq. destruct Fq as [_ Fq].
        pose proof (fo_kids _ _ R _ _ Enq) as Hk. rewrite Kq in Hk. destruct (is_ref nq); [done|]. by destruct Fq as (? & _).
      - destruct H as (F & C & Rd). do 2 (split; [done|]). by apply g_target.
    Qed.

    Lemma g_enclosed i x cc : i <> 0%nat -> s_info s0 !! i = Some x -> parf (lns s0) cc = i ->
      encl s0 D cc = if i_type x =? T_STRUCT then match f_tdp (D i) with Some k => Some (i_data x, k) | None => None end else None.
    Proof. intros I0 E Pc. unfold encl. rewrite Pc, E. destruct (Nat.eqb_spec i 0); [done|]. done. Qed.

    Lemma g_describes u : forall x0, shaped K2 u -> (forall j, j ∈ nodes u -> j ∈ nodes t) -> s_info s0 !! root u = Some x0 ->
      describes W st (encl s0 D (root u)) (D (root u)) (i_data x0) u.
    Proof.
      induction u as [i us IH] using tree_ind'. intros x0 Hu Hin Ex. cbn [root] in *. rewrite shaped_eq in Hu. destruct Hu as [Rk Su].
      assert (i ∈ nodes t) as Hi by (apply Hin; cbn; left). destruct (Tin i Hi) as (I0 & Li & Hs).
      destruct (f_has i Li) as (y & n0 & Ey & En). rewrite Ex in Ey. injection Ey as <-.
      destruct (g_node i x0 n0 Hi Ex En) as (x & n & E1 & E2 & S1 & _ & _ & F & _). pose proof S1 as (Sd & St & Sf & Sa & Sun & _).
      destruct (v_id _ _ _ _ _ I i x0 I0 Ex) as (Tt & Tu & Ta & Fok & Cr & _).
      destruct (v_fdp_c _ _ _ _ _ I i x0 I0 ltac:(set_solver) Ex) as (h & Hh & Hnp & Htd & Hb & Heq).
      pose proof (v_node _ _ _ _ _ I i x0 I0 ltac:(set_solver) Ex) as Nok.
      assert (stands st i (D i) (i_data x0) x n) as Hst.
      { unfold stands. do 3 (split; [done|]). split; [congruence|]. split; [congruence|]. split; [intros Ne; rewrite Sa; apply Ta; congruence|].
        split; [|exists h; split; [congruence|]; done]. rewrite <- Tt. intros Nn. pose proof (proj1 Nok Nn) as N0.
        unfold fin, voidp in F. apply orb_false_iff in Nn as [Nn _]. apply orb_false_iff in Nn as [Nn _]. rewrite Nn in F. cbn [andb] in F. destruct F as [-> _]. done. }
      assert (forall cc, cc ∈ K i -> i_type x0 <> T_STRING -> exists xc, s_info s0 !! cc = Some xc /\ parf (lns s0) cc = i) as Kid.
      { intros cc Hc _. destruct (kid_lt _ _ R _ _ Hc) as (_ & Cl & _ & _ & Pc). destruct (f_has cc Cl) as (xc & _ & Ec & _). eauto. }
      (* the children are described *)
      assert (Forall (fun v => forall xc, s_info s0 !! root v = Some xc -> describes W st (encl s0 D (root v)) (D (root v)) (i_data xc) v) us) as Fus.
      { rewrite Forall_forall in IH, Su |- *. intros v Hv xc Ec. apply IH; [done|by apply Su| |done]. intros j Hj. apply Hin. cbn. right.
        clear -Hv Hj. induction us as [|w us IHu]; [by apply elem_of_nil in Hv|]. cbn. apply elem_of_app. apply elem_of_cons in Hv as [-> |Hv]; auto. }
      assert (forall v, v ∈ us -> root v ∈ K i) as Kus.
      { intros v Hv. assert (root v ∈ K2 i) as H by (rewrite <- Rk; by apply elem_of_list_fmap_1). by apply (sub_in K K2 K2_sub). }
      (* of nodes of other types than pointers and strings *)
      assert (ptr_or_str (i_type x0) = false -> is_ref n = false /\ K2 i = K i) as Plain.
      { unfold ptr_or_str. intros Pt. apply orb_false_iff in Pt as [Pp Ps]. split; [|unfold K2; by rewrite Ex, Ps].
        unfold fin, voidp in F. rewrite Pp in F. cbn in F. destruct F as [_ F]. destruct (is_ref n0) eqn:R0; [|by destruct F as (? & _)].
        destruct (v_ref _ _ _ _ _ I i x0 n0 Ex En R0) as (Q & _). unfold ptr_or_str in Q. by rewrite Pp, Ps in Q. }
      destruct Nok as [Nul Nok]. unfold node_body in Nok.
      destruct (Z.eqb_spec (i_type x0) T_STRUCT) as [Ts|Ns].
      { destruct Nok as (k & tt & Hk & Ht & Hf). destruct Plain as [Rn Kk]; [by rewrite Ts|]. rewrite <- Kk, <- Rk in Hf.
        eapply (d_struct W st); [exact Hst|congruence|done|done|done|]. eapply Forall2_kids; [exact Hf|exact Fus|].
        intros cc f v Hv Rv (Dc & xc & Ec & Ac) Q. subst cc. specialize (Q xc Ec).
        destruct (kid_lt _ _ R _ _ (Kus v Hv)) as (_ & _ & _ & _ & Pc). rewrite (g_enclosed i x0 (root v) I0 Ex Pc), Ts, Hk, Dc, Ac in Q. exact Q. }
      destruct (Z.eqb_spec (i_type x0) T_ARRAY) as [Tar|Nar].
      { destruct Nok as (cnt & Hc & Hf). destruct Plain as [Rn Kk]; [by rewrite Tar|]. rewrite <- Kk, <- Rk in Hf.
        eapply (d_array W st); [exact Hst|congruence|done|exact Hc|]. eapply Forall2_kids; [exact Hf|exact Fus|].
        intros cc f v Hv Rv (Dc & xc & Ec & Ac) Q. subst cc. specialize (Q xc Ec).
        destruct (kid_lt _ _ R _ _ (Kus v Hv)) as (_ & _ & _ & _ & Pc). rewrite (g_enclosed i x0 (root v) I0 Ex Pc), Tar, Dc, Ac in Q. exact Q. }
      destruct (union_type (i_type x0)) eqn:Un.
      { assert (ptr_or_str (i_type x0) = false) as Pt.
        { unfold ptr_or_str. destruct (Z.eqb_spec (i_type x0) T_POINTER) as [E|_]; [by rewrite E in Un|]. destruct (Z.eqb_spec (i_type x0) T_STRING) as [E|_]; [by rewrite E in Un|done]. }
        destruct (Plain Pt) as [Rn Kk]. fold (chosen W (i_data x0) (D i)) in Nok. destruct (chosen W (i_data x0) (D i)) as [hd|] eqn:Ch.
        - destruct Nok as (cc & Kc & Dc & xc & Ec & Ac). rewrite Kk, Kc in Rk. destruct us as [|v [|]]; [done| |done]. cbn in Rk. injection Rk as Rv.
          inversion Fus as [|? ? Q _]; subst. specialize (Q xc Ec).
          assert (parf (lns s0) (root v) = i) as Pc by (by destruct (kid_lt _ _ R i (root v)) as (_ & _ & _ & _ & ?); [apply Kus; left|]).
          rewrite (g_enclosed i x0 (root v) I0 Ex Pc), Ac in Q. destruct (Z.eqb_spec (i_type x0) T_STRUCT) as [|_]; [done|].
          eapply (d_union W st); [exact Hst|congruence|done|exact Ch|exact Q].
        - rewrite Kk, Nok in Rk. destruct us; [|done]. eapply (d_no_union W st); [exact Hst|congruence|done|exact Ch]. }
      destruct (Z.eqb_spec (i_type x0) T_POINTER) as [Tp|Np].
      { destruct Nok as (p & Wp & Op & Hnull). assert (K2 i = K i) as Kk by (unfold K2; by rewrite Ex, Tp). rewrite Kk in Rk.
        assert (i_aux x0 = f_aux (D i)) as Eaux by (apply Ta; by rewrite Tp).
        pose proof (f_pointer i x0 n0 I0 Ex En Tp) as Fp. unfold followed in Fp. rewrite Op, orb_false_r, Tp, Eaux in Fp. cbn [Z.eqb] in Fp.
        change (T_POINTER =? T_POINTER) with true in Fp. cbn [andb] in Fp.
        unfold fin, voidp in F. rewrite Tp, Eaux in F. change (T_POINTER =? T_POINTER) with true in F. change (T_POINTER =? T_STRING) with false in F. cbn [andb] in F.
        assert (exists u, (p <> 0 -> unit_size W (f_aux (D i)) (f_tdp (D i)) = Some u) /\ i_null x0 = (p =? 0) || (u =? 0)) as (u & Hu & Hn).
        { destruct (Z.eqb_spec p 0) as [->|Np]; [exists 0; done|]. destruct Hnull as [Hu Hn]. exists (i_size x0). done. }
        destruct (i_null x0) eqn:N0.
        - (* NULL *)
          cbn in Fp, F. rewrite !andb_false_r in Fp, F. destruct Fp as (K0 & R0 & F0). rewrite R0 in F. destruct F as (Nx & Rn & _).
          rewrite K0 in Rk. destruct us; [|done]. eapply (d_bare W st); [exact Hst|]. unfold bare. rewrite <- Tt, Tp.
          change (T_POINTER =? T_POINTER) with true. exists p, u. do 2 (split; [done|]). rewrite <- Hn. done.
        - cbn in Fp, F. rewrite !andb_true_r in Fp, F. rewrite orb_comm in F.
          destruct (f_aux (D i) =? T_VOID) eqn:Av; [|destruct (f_aux (D i) =? T_NONE) eqn:An].
          3:{ cbn in Fp, F. destruct F as [Nx F]. destruct (is_ref n0) eqn:R0.
            - (* a reference *)
              destruct F as [Rn Pt]. destruct (v_ref _ _ _ _ _ I i x0 n0 Ex En R0) as (_ & Nr & xr & nr & Er & Enr & _ & (Tg1 & Tg2 & Tg3) & Tg4).
              rewrite Tp in Tg3. change (T_POINTER =? T_STRING) with false in Tg3. cbv iota in Tg3.
              pose proof (fo_kids _ _ R _ _ En) as K0. rewrite R0 in K0. rewrite K0 in Rk. destruct us; [|done].
              eapply (d_bare W st); [exact Hst|]. unfold bare. rewrite <- Tt, Tp. change (T_POINTER =? T_POINTER) with true.
              exists p, u. do 2 (split; [done|]). rewrite <- Hn, Av, An. cbn [orb]. split; [congruence|]. split; [done|].
              assert (i_type xr <> T_CHAR_ARRAY) as Nca.
              { destruct Fok as (_ & _ & Fl). rewrite <- Tt, Tp in Fl. change (T_POINTER =? T_ARRAY) with false in Fl. destruct Fl as (_ & _ & Fl).
                destruct (Fl eq_refl) as (_ & _ & (T1 & _) & _). congruence. }
              pose proof (g_points x n _ xr Er Nr Pt) as G. rewrite (f_not_string _ _ Er Nca) in G. destruct G as (Cx & Fx & xr' & Tx & Sx).
              split; [done|]. split; [destruct (Tg4 Tp) as [Mt _]; rewrite Tg3 in Mt; intros Ap; by rewrite Ap in Mt|]. exists xr'. rewrite Fx. split; [done|]. pose proof Sx as (Sx1 & Sx2 & Sx3 & _). rewrite Sx1, Sx2, Sx3, Tg3.
              split; [congruence|]. split; [done|]. intros Hc.
              destruct (v_fdp_c _ _ _ _ _ I _ xr Nr ltac:(set_solver) Er) as (hr & Hhr & _ & Htr & _). exists hr. split; [done|]. rewrite Htr. destruct (Tg4 Tp) as [_ Tg5]. apply Tg5. by rewrite Tg3.
            - (* the content below *)
              destruct Fp as [Fk|Fk]; [|done]. destruct F as (Rn & Cx & _).
              destruct (v_one _ _ _ _ _ I i x0 I0 Ex) as [K0|(cc & xc & Kc & Ec & (C1 & C2 & C3) & C4)]; [by rewrite Tp|done|].
              rewrite Kc in Rk. destruct us as [|v [|]]; [done| |done]. cbn in Rk. injection Rk as Rv. subst cc.
              inversion Fus as [|? ? Q _]; subst. specialize (Q xc Ec).
              assert (parf (lns s0) (root v) = i) as Pc by (by destruct (kid_lt _ _ R i (root v)) as (_ & _ & _ & _ & ?); [apply Kus; left|]).
              rewrite (g_enclosed i x0 (root v) I0 Ex Pc), Tp in Q. change (T_POINTER =? T_STRUCT) with false in Q. rewrite (C4 Tp) in Q.
              eapply (d_pointer W st); [exact Hst|congruence|done|congruence|exact C1|done| | |exact Q]; by apply Z.eqb_neq. }
          all: cbn in Fp; assert (K i = []) as K0 by (by destruct Fp as (? & _)).
          all: cbn in F; destruct F as (Nx & p' & Wp' & F); rewrite Wp in Wp'; injection Wp' as <-.
          all: rewrite K0 in Rk; destruct us; [|done].
          all: eapply (d_bare W st); [exact Hst|]; unfold bare; rewrite <- Tt, Tp; change (T_POINTER =? T_POINTER) with true.
          all: exists p, u; do 2 (split; [done|]); rewrite <- Hn, Av; try rewrite An; cbn [orb]; split; [done|].
          all: destruct F as [(Rn & r & xr & Nr & Er & Dr & Pt)|(Rn & _ & _ & No)]; rewrite Rn.
          all: try (pose proof (g_points x n r xr Er Nr Pt) as G; destruct (in_string s0 r);
            [right; destruct G as (_ & Cx & xq & G1 & G2 & G3); exists xq; split; [done|]; rewrite Cx; split; [done|congruence]
            |left; destruct G as (Cx & Fx & xr' & Tx & (Sx & _)); exists xr'; rewrite Fx; split; [done|]; split; [done|congruence]]).
          all: intros r xr Nr Er; destruct (f_back r xr Er) as (xr0 & Er0 & (-> & _)); by apply (No r). }
      destruct (Z.eqb_spec (i_type x0) T_STRING) as [Tst|Nst].
      { destruct Nok as (p & Wp & Hn & Hd). assert (K2 i = []) as K0 by (unfold K2; by rewrite Ex, Tst). rewrite K0 in Rk. destruct us; [|done].
        unfold fin, voidp in F. rewrite Tst in F. change (T_STRING =? T_POINTER) with false in F. cbn [andb] in F. destruct F as [Nx F].
        eapply (d_bare W st); [exact Hst|]. unfold bare. rewrite <- Tt, Tst. change (T_STRING =? T_POINTER) with false. change (T_STRING =? T_STRING) with true.
        exists p. split; [done|]. split; [congruence|]. destruct (is_ref n0) eqn:R0.
        - destruct (v_ref _ _ _ _ _ I i x0 n0 Ex En R0) as (_ & Nr & xr & nr & Er & Enr & _ & (Tg1 & Tg2 & Tg3) & _).
          rewrite Tst in Tg3. change (T_STRING =? T_STRING) with true in Tg3. cbv iota in Tg3. rewrite Wp in Tg1. injection Tg1 as ->.
          split; [done|]. intros _. destruct F as [Rn Pt]. pose proof (g_points x n _ xr Er Nr Pt) as G. destruct (in_string s0 (first_child n0)).
          + destruct G as (_ & Cx & xq & G1 & G2 & G3). exists xq. split; [done|]. rewrite Cx. done.
          + destruct G as (Cx & Fx & xr' & Tx & (Sx1 & Sx2 & _)). exists xr'. rewrite Fx. split; [done|]. rewrite Cx, Sx1, Sx2. done.
        - destruct F as (Rn & _). rewrite Rn. done. }
      assert (ptr_or_str (i_type x0) = false) as Pt by (unfold ptr_or_str; by apply orb_false_iff; split; apply Z.eqb_neq).
      destruct (Plain Pt) as [Rn Kk].
      assert (i_null x = i_null x0) as Nx.
      { unfold fin, voidp in F. destruct (Z.eqb_spec (i_type x0) T_POINTER); [done|]. cbn [andb] in F. by destruct F as [? _]. }
      destruct ((i_type x0 =? T_FUNC) || (i_type x0 =? T_FUNC_TYPE)) eqn:Tf.
      { destruct Nok as (K0 & p & Wp & Hn). rewrite Kk, K0 in Rk. destruct us; [|done]. eapply (d_bare W st); [exact Hst|]. unfold bare.
        rewrite <- Tt, Tf. destruct (Z.eqb_spec (i_type x0) T_POINTER); [done|]. destruct (Z.eqb_spec (i_type x0) T_STRING); [done|].
        split; [done|]. exists p. split; [done|congruence]. }
      rewrite Kk, Nok in Rk. destruct us; [|done]. eapply (d_bare W st); [exact Hst|]. unfold bare.
      rewrite <- Tt, Tf. destruct (Z.eqb_spec (i_type x0) T_POINTER); [done|]. destruct (Z.eqb_spec (i_type x0) T_STRING); [done|]. done.
    Qed.
  End Result.
End Finish.

Lemma dfs_same_result {C} (proc : list node -> C -> nat -> Z -> order -> option (bool * list node * C)) f1 f2 ns c i b1 ns1 c1 b2 ns2 c2 :
  dfs proc f1 ns c i = Done b1 ns1 c1 -> dfs proc f2 ns c i = Done b2 ns2 c2 -> ns1 = ns2.
Proof.
  intros H1 H2. unfold dfs in *. apply (dfs_run_done _ _ _ (f1 + f2)) in H1; [|lia]. apply (dfs_run_done _ _ _ (f1 + f2)) in H2; [|lia]. congruence.
Qed.

Section Saved.
  Context (W : world).
  Hypothesis HW : wf_world W.

  (** Two nodes for the same value. *)
  Definition same_value (x y : info) : Prop :=
    i_data x = i_data y /\ i_type x = i_type y /\ matchable (i_type x) = true /\
    (compound (i_type x) = true -> forall g h, i_fdp x = Some g -> i_fdp y = Some h -> f_tdp g = f_tdp h).

  Theorem saved fuel depth data f st : wf_root W f -> mr_save W fuel depth data f = Some (Some st) ->
    exists ks, tree_at (lns st) 0 0 (T 1 ks) /\ NoDup (nodes (T 1 ks)) /\ length (s_info st) = length (lns st) /\
      (forall k j n, nodes (T 1 ks) !! k = Some j -> lns st !! j = Some n -> pub_idx n = S k) /\
      (forall i n, i <> 0%nat -> lns st !! i = Some n -> i ∈ nodes (T 1 ks) \/
        parent n ∈ nodes (T 1 ks) /\ exists q, s_info st !! parent n = Some q /\ i_type q = T_STRING) /\
      describes W st None (root_fd f) data (T 1 ks) /\
      (forall c d xc xd nc nd xp xq, c <> d -> s_info st !! c = Some xc -> s_info st !! d = Some xd -> lns st !! c = Some nc -> lns st !! d = Some nd ->
        parent nc <> 0%nat -> parent nd <> 0%nat -> s_info st !! parent nc = Some xp -> s_info st !! parent nd = Some xq ->
        i_type xp = T_POINTER -> i_type xq = T_POINTER -> ~ same_value xc xd) /\
      (forall i j x y n m a, i <> j -> i <> 0%nat -> j <> 0%nat -> s_info st !! i = Some x -> s_info st !! j = Some y -> lns st !! i = Some n -> lns st !! j = Some m ->
        i_type x = T_STRING -> i_type y = T_STRING -> is_ref n = false -> is_ref m = false ->
        w_ptr W (i_data x) = Some a -> w_ptr W (i_data y) = Some a -> a <> 0 -> False).
  Proof.
    intros Hf H. unfold mr_save in H. destruct (data =? 0); [done|]. apply bind_Some in H as ([n s] & Hs & H).
    destruct (Z.eqb_spec n 0) as [|Nn]; [done|]. apply bind_Some in H as ([b s0] & Hl & H). destruct b; [|done].
    destruct (collected W HW data f fuel depth n s s0 Hf Hs Nn Hl) as (K & D & L).
    apply bind_Some in H as (st' & H & Est). injection Est as ->. unfold post_process in H. apply bind_Some in H as (s1 & Hp & H).
    pose proof (f_post W data _ s0 K D L s1 Hp) as P.
    destruct (f_tree W data _ s0 K D L s1 P) as (ks & At & Nd & Sh & Tin & Tall).
    destruct (C50_renumber _ _ _ At Nd) as (fu & ns' & Hd & Ln & Nin & Nout).
    destruct (dfs renumber_node fuel (lns s1) 1%nat 1%nat) as [s2|[] ns c2|] eqn:Ed; try done. injection H as <-.
    assert (ns' = ns) as -> by (eapply dfs_same_result; [apply Hd; reflexivity|exact Ed]).
    set (st := SSt _ _ _). cbn [lns ra s_ptrs] in *.
    pose proof (l_inv _ _ _ _ _ _ _ L) as I. pose proof (v_for _ _ _ _ _ I) as R.
    assert (forall i n, ns !! i = Some n -> exists m, lns s1 !! i = Some m /\ links n = links m /\ (i ∈ nodes (T 1 ks) -> pub_idx n <> 0%nat)) as Bk.
    { intros i m Em. assert (i < length (lns s1))%nat as Li by (rewrite <- Ln; by eapply lookup_lt_Some). destruct (lookup_lt_is_Some_2 _ _ Li) as [m1 Em1].
      exists m1. split; [done|]. destruct (decide (i ∈ nodes (T 1 ks))) as [Hi|Hi].
      - apply elem_of_list_lookup in Hi as [k Hk]. rewrite (Nin _ _ _ Hk Em1) in Em. injection Em as <-. done.
      - rewrite (Nout _ Hi), Em1 in Em. by injection Em as <-. }
    assert (map links ns = map links (lns s1)) as Lk.
    { apply list_eq. intros i. rewrite !list_lookup_fmap. destruct (ns !! i) as [m|] eqn:Em.
      - destruct (Bk _ _ Em) as (m1 & -> & E & _). cbn. by rewrite E.
      - apply lookup_ge_None in Em. rewrite Ln in Em. apply lookup_ge_None in Em. by rewrite Em. }
    assert (forall i m, i <> 0%nat -> ns !! i = Some m -> exists x0 n0 x, s_info s0 !! i = Some x0 /\ lns s0 !! i = Some n0 /\ s_info s1 !! i = Some x /\
      sameI x0 x /\ parent m = parf (lns s0) i /\ fin W s0 s1 x0 n0 x m) as Fn.
    { intros i m I0 Em. destruct (Bk _ _ Em) as (m1 & Em1 & E & _). injection E as E1 E2 E3 E4.
      assert (i < length (lns s0))%nat as Li by (rewrite <- (p_lenl _ _ _ _ P); by eapply lookup_lt_Some).
      destruct (f_has W data _ s0 K D L i Li) as (x0 & n0 & Ex & En). destruct (f_node W s0 s1 P i x0 n0 I0 Ex En) as (x & m2 & Ex2 & Em2 & S1 & (S2 & _) & F).
      rewrite Em1 in Em2. injection Em2 as <-. exists x0, n0, x. do 4 (split; [done|]). split; [rewrite E1, S2; by rewrite (parf_lu _ _ _ En)|].
      unfold fin, points in *. rewrite E3, E4. exact F. }
    assert (forall i x, s_info s1 !! i = Some x -> exists x0, s_info s0 !! i = Some x0 /\ sameI x0 x) as Fb.
    { intros i x Ex. by apply (f_back W data _ s0 K D L s1 P). }
    exists ks. split; [by eapply tree_at_links|]. split; [done|]. split; [change (length (s_info s1) = length ns); rewrite Ln, (p_len _ _ _ _ P), (p_lenl _ _ _ _ P); exact (v_len _ _ _ _ _ I)|]. split.
    { intros k j m Hk Em. change (ns !! j = Some m) in Em. destruct (Bk _ _ Em) as (m1 & Em1 & _). rewrite (Nin _ _ _ Hk Em1) in Em. by injection Em as <-. }
    split.
    { intros i m I0 Em. destruct (Fn i m I0 Em) as (x0 & n0 & x & Ex & En & Ex1 & S1 & Pm & _).
      destruct (in_string s0 i) eqn:Is.
      - right. destruct (f_string W data _ s0 K D L i Is) as (q & xq & xr & Nq & Pq & Eq & _ & Tq & _). rewrite Pm, Pq.
        pose proof (f_lt W data _ s0 K D L _ _ Eq) as Lq. split.
        + apply Tall; [done|done|]. eapply f_not_string; [exact L|exact Eq|by rewrite Tq].
        + destruct (f_has W data _ s0 K D L q Lq) as (xq' & nq & Eq' & Enq). rewrite Eq in Eq'. injection Eq' as <-.
          destruct (f_node W s0 s1 P q xq nq Nq Eq Enq) as (x' & _ & E' & _ & (_ & T' & _) & _). exists x'. split; [done|congruence].
      - left. apply Tall; [done|by eapply lookup_lt_Some|done]. }
    split.
    { destruct (l_root _ _ _ _ _ _ _ L) as (D1 & x1 & Ex1 & A1).
      pose proof (g_describes W data _ s0 K D L s1 P ks ns (cache (s_ptrs s1)) Sh Tin Tall Nin (T 1 ks) x1 Sh ltac:(done) Ex1) as G. cbn [root] in G.
      rewrite D1, A1 in G. unfold encl in G. rewrite (l_par _ _ _ _ _ _ _ L) in G. exact G. }
    assert (forall i m, ns !! i = Some m -> parent m <> 0%nat -> i <> 0%nat /\ i ∈ K (parent m)) as Pk.
    { intros i m Em Pz. assert (i < length (lns s0))%nat as Li.
      { rewrite <- (p_lenl _ _ _ _ P), <- Ln. by eapply lookup_lt_Some. }
      destruct (Nat.eq_dec i 0%nat) as [->|I0].
      - exfalso. apply Pz. destruct (Bk _ _ Em) as (m1 & Em1 & E & _). injection E as E1 _ _ _. rewrite E1.
        destruct (f_has W data _ s0 K D L 0%nat Li) as (x0 & n0 & Ex & En). destruct (p_info _ _ _ _ P _ _ _ Ex En) as (x & m' & _ & Em' & _ & (S2 & _) & _).
        rewrite Em1 in Em'. injection Em' as <-. rewrite S2. pose proof (parf_zero _ _ R) as Z. by rewrite (parf_lu _ _ _ En) in Z.
      - split; [done|]. destruct (Fn i m I0 Em) as (_ & _ & _ & _ & _ & _ & _ & Pm & _). rewrite Pm. apply (fo_in _ _ R). rewrite <- Pm. done. }
    split.
    { intros cc d xc xd nc nd xp xq Ncd Ec Ed' Enc End Pc Pd Ep Eq Tp Tq (V1 & V2 & V3 & V4).
      destruct (Pk _ _ Enc Pc) as [C0 Kc]. destruct (Pk _ _ End Pd) as [D0 Kd].
      destruct (Fb _ _ Ec) as (yc & Eyc & (A1 & A2 & A3 & _)). destruct (Fb _ _ Ed') as (yd & Eyd & (B1 & B2 & B3 & _)).
      destruct (Fb _ _ Ep) as (yp & Eyp & (_ & P2 & _)). destruct (Fb _ _ Eq) as (yq & Eyq & (_ & Q2 & _)).
      eapply (v_uniq _ _ _ _ _ I _ _ cc d yp yq yc yd Ncd Kc Kd Eyp Eyq Eyc Eyd); [by rewrite <- P2, Tp|by rewrite <- Q2, Tq|].
      unfold alike. split; [congruence|]. split; [congruence|]. rewrite <- A2. split; [done|]. intros Hc.
      destruct (v_fdp_c _ _ _ _ _ I cc yc C0 ltac:(set_solver) Eyc) as (hc & Hhc & _ & <- & _). destruct (v_fdp_c _ _ _ _ _ I d yd D0 ltac:(set_solver) Eyd) as (hd & Hhd & _ & <- & _).
      apply V4; congruence. }
    intros i j x y m1 m2 a Nij Zi Zj Ex Ey Em1 Em2 Tx Ty R1 R2 Wx Wy Na.
    assert (forall i x m, i <> 0%nat -> s_info s1 !! i = Some x -> ns !! i = Some m -> i_type x = T_STRING -> is_ref m = false -> w_ptr W (i_data x) = Some a ->
      exists x0 c xc, s_info s0 !! i = Some x0 /\ i_type x0 = T_STRING /\ K i = [c] /\ s_info s0 !! c = Some xc /\ i_data xc = a /\ i_type xc = T_CHAR_ARRAY) as Own.
    { clear - Fb Fn I Na L R. intros i x m I0 Ex Em T Rm Wx. destruct (Fb _ _ Ex) as (x0 & E0 & (A1 & A2 & _)).
      destruct (Fn i m I0 Em) as (y0 & n0 & y & Ey0 & En0 & Ey & Sy & _ & F). rewrite E0 in Ey0. injection Ey0 as <-.
      unfold fin, voidp in F. assert (i_type x0 = T_STRING) as T0 by congruence. rewrite T0 in F. change (T_STRING =? T_POINTER) with false in F. cbn [andb] in F. destruct F as [_ F].
      destruct (is_ref n0) eqn:R0; [by destruct F; congruence|].
      pose proof (proj2 (v_node _ _ _ _ _ I i x0 I0 ltac:(set_solver) E0)) as Nk. unfold node_body in Nk. rewrite T0 in Nk.
      destruct Nk as (p & Wp & _ & Hd). rewrite <- A1, Wx in Wp. injection Wp as <-. destruct (Hd Na) as [Kn|(n' & En' & Rn')]; [|congruence].
      destruct (v_one _ _ _ _ _ I i x0 I0 E0) as [K0|(cc & xc & Kc & Ec & (C1 & C2 & C3) & _)]; [by rewrite T0|done|].
      rewrite T0 in C3. rewrite <- A1, Wx in C1. injection C1 as C1. exists x0, cc, xc. done. }
    destruct (Own _ _ _ Zi Ex Em1 Tx R1 Wx) as (x0 & c1 & y1 & E1 & T1 & K1 & Ey1 & A1 & B1).
    destruct (Own _ _ _ Zj Ey Em2 Ty R2 Wy) as (x1 & c3 & y2 & E2 & T2 & K3 & Ey2 & A2 & B2).
    assert (c1 <> c3) as Nc.
    { intros ->. assert (c3 ∈ K i) as H1 by (rewrite K1; left). assert (c3 ∈ K j) as H2 by (rewrite K3; left).
      destruct (kid_lt _ _ R _ _ H1) as (_ & _ & _ & _ & Q1). destruct (kid_lt _ _ R _ _ H2) as (_ & _ & _ & _ & Q2). congruence. }
    eapply (v_uniq _ _ _ _ _ I i j c1 c3 x0 x1 y1 y2 Nc); try done; [by rewrite K1; left|by rewrite K3; left|by rewrite T1|by rewrite T2|].
    unfold alike. rewrite A1, A2, B1, B2. done.
  Qed.
End Saved.
