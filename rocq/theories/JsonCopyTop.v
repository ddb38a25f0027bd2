(** What memory holds after data was saved to JSON and loaded, for the proof of C77. *)
From stdpp Require Import list sets.
From Verif Require Import Base Ptrs DfsProof PruneProof TreeFacts Save SaveSpec Json JsonSpec Copy CopySpec CopyTree CopyPrint CopyLoad.
From Verif Require Load LoadSpec LoadFits P_LoadFits.
Local Open Scope Z_scope.

Section Top.
  Context (W : world) (names : nat -> list Z) (known : list Z -> bool) (wrapv : bool) (cstr : Z -> list Z) (shown : Z -> Z -> fd -> jkind) (st : sst).
  Context (leaf : Load.node -> Load.stype -> bool * bool) (alloc : nat -> bool) (d0 : dtree) (ns : list node) (ps : list pinfo).
  Notation env := (load_env W names).
  Notation js := (map (print_info W names cstr shown) (s_info st)).
  Notation pub := (public (lns st)).
  Hypothesis HW : wf_world W.
  Hypothesis HP : plain_world W names known.
  Hypothesis HS : printable wrapv cstr shown.
  Hypothesis Hleaf : readable shown leaf.
  Hypothesis Halloc : forall b, alloc b = true.
  Hypothesis HT : tree_at (lns st) 0 0 (shape d0).
  Hypothesis HL : Forall (fun x => local W st x /\ fine W names (d_g x)) (flat d0).
  Hypothesis HQ : forall i n, i <> 0%nat -> lns st !! i = Some n -> i ∈ nodes (shape d0) \/
      parent n ∈ nodes (shape d0) /\ exists q, s_info st !! parent n = Some q /\ i_type q = T_STRING.
  Hypothesis Num : numbered (lns st) (shape d0).
  Hypothesis Sz : Z.of_nat (length (flat d0)) < 2 ^ 32 - 1.
  Hypothesis HT' : tree_at ns 0 0 (rename pub (shape d0)).
  Hypothesis HI : forall j m, ns !! j = Some m -> pub_idx m = j.
  Hypothesis HR : forall i, i ∈ nodes (shape d0) -> exists n d p, lns st !! i = Some n /\ js !! i = Some d /\
      ps !! pub_idx n = Some p /\ node_read (lns st) js n d p.
  Notation lnode := (lnode st ns ps).
  Notation seen := (seen W names cstr shown st d0 ns ps HL HR).
  Notation local_at := (local_at W names st d0 HL).
  Notation index_of := (index_of W names st d0 HL Num).

  Context (m : Load.state) (place : nat -> Load.addr).
  Notation ty := (ty d0).
  Notation root := (lnode d0).
  Notation places d := (place (Load.n_idx (lnode d))).
  Hypothesis HC : forall nd, nd ∈ Load.subtree root ->
       let t := ty (Load.n_idx nd) in let a := place (Load.n_idx nd) in
       LoadSpec.inside m a t /\ LoadFits.value_loaded m nd a t /\
       (Load.s_kind t = Load.Struct \/ Load.s_kind t = Load.Array -> forall k, k ∈ Load.n_kids nd -> place (Load.n_idx k) = Load.shift a (off d0 (Load.n_idx k))) /\
       (Load.s_kind t = Load.Pointer -> Load.n_null nd = false -> Load.n_kids nd <> [] ->
          exists b, b <> 0%nat /\ b <> a.1 /\ Load.get_ptr m a = Some (Load.To (b, 0)) /\
            forall k, k ∈ Load.n_kids nd -> place (Load.n_idx k) = (b, off d0 (Load.n_idx k))) /\
       (Load.s_kind t = Load.Pointer -> Load.n_ref nd = None -> Load.n_null nd = true \/ Load.n_kids nd = [] /\ LoadSpec.asks_none nd -> Load.get_ptr m a = Some Load.Null) /\
       (LoadSpec.is_ptr (Load.s_kind t) -> forall nd', nd' ∈ Load.subtree root -> Load.n_id nd' <> 0 ->
          (forall j x, Load.subtree root !! j = Some x -> Load.n_id x = Load.n_id nd' -> S j = Load.n_idx nd') ->
          (LoadSpec.asks nd false (Load.n_id nd') -> Load.get_ptr m a = Some (Load.To (place (Load.n_idx nd')))) /\
          (LoadSpec.asks nd true (Load.n_id nd') -> LoadSpec.asks_none nd' -> Load.get_ptr m a = Load.get_ptr m (place (Load.n_idx nd')))).

  Definition R (e : option (Z * nat)) (a : Z) (g : fd) (b : Load.addr) : Prop :=
    exists d, d ∈ flat d0 /\ d_e d = e /\ d_a d = a /\ d_g d = g /\ b = places d.

  Lemma in_sub d : d ∈ flat d0 -> lnode d ∈ Load.subtree root.
  Proof. intros Hd. rewrite subtree_lnode. by apply elem_of_list_In, in_map, elem_of_list_In. Qed.
  Lemma ty_of d : d ∈ flat d0 -> ty (Load.n_idx (lnode d)) = load_stype (d_g d).
  Proof. by apply (ty_idx W names st d0 ns ps HL Num). Qed.
  Lemma R_of d : d ∈ flat d0 -> R (d_e d) (d_a d) (d_g d) (places d).
  Proof. intros Hd. by exists d. Qed.

  Lemma kind_type g : fine W names g -> (f_type g = T_POINTER -> Load.s_kind (load_stype g) = Load.Pointer) /\ (f_type g = T_STRING -> Load.s_kind (load_stype g) = Load.Str).
  Proof. intros _. unfold load_stype. split; intros ->; done. Qed.

  Lemma asks_at d x n r xr : d ∈ flat d0 -> stands st (d_i d) (d_g d) (d_a d) x n -> is_ref n = true -> first_child n = r -> target st r xr ->
    f_type (d_g d) = T_POINTER \/ f_type (d_g d) = T_STRING ->
    exists dr, dr ∈ flat d0 /\ d_i dr = r /\ s_info st !! d_i dr = Some xr /\
      (i_cref x = false -> Load.get_ptr m (places d) = Some (Load.To (places dr))) /\
      (i_cref x = true -> LoadSpec.asks_none (lnode dr) -> Load.get_ptr m (places d) = Load.get_ptr m (places dr)).
  Proof.
    intros Hd S Rn Er Tr Hk. destruct (ref_node W names cstr shown st d0 ns ps HT HL HQ HR d x n r xr Hd S Rn Er Tr) as (dr & Hdr & Edr & Exr & Hn & Hv).
    exists dr. split; [done|]. split; [done|]. split; [done|].
    destruct (HC (lnode d) (in_sub d Hd)) as (_ & _ & _ & _ & _ & C). rewrite (ty_of d Hd) in C.
    destruct (kind_type (d_g d) (proj2 (local_at d Hd))) as [K1 K2].
    assert (LoadSpec.is_ptr (Load.s_kind (load_stype (d_g d)))) as Hp by (destruct Hk; [left|right]; auto).
    pose proof (id_lnode st d0 ns ps HT' HI) as Id. destruct (index_of dr Hdr) as (k & Hk1 & Ek).
    pose proof (lookup_lt_Some _ _ _ Hk1) as Lt.
    destruct (C Hp (lnode dr) (in_sub dr Hdr)) as [C1 C2].
    { rewrite Id, Ek by done. lia. }
    { intros j y. rewrite subtree_lnode. change (map lnode (flat d0)) with (lnode <$> flat d0). rewrite list_lookup_fmap. intros Hj E. apply fmap_Some in Hj as (dj & Hj & ->).
      pose proof (elem_of_list_lookup_2 _ _ _ Hj) as Hdj. rewrite !Id in E by done. rewrite idx_lnode, Ek. rewrite (pub_at W names st d0 HL Num _ _ Hj), Ek in E. lia. }
    destruct (seen d Hd) as (_ & _ & _ & _ & _ & _ & _ & _ & Er' & _).
    split.
    - intros Ec. rewrite Ec in Hv. apply C1. rewrite Id by done. split; [done|]. rewrite Edr in Ek |- *. rewrite Ek in *. split; [lia|]. right. done.
    - intros Ec Hno. rewrite Ec in Hv. apply C2; [|done]. rewrite Id by done. split; [done|]. rewrite Edr in Ek |- *. rewrite Ek in *. split; [lia|]. right. split; [done|]. split; [lia|done].
  Qed.

  (** A reference to characters. *)
  Lemma text_at d x n p : d ∈ flat d0 -> stands st (d_i d) (d_g d) (d_a d) x n -> is_ref n = true -> to_text W st x n p -> p <> 0 ->
    f_type (d_g d) = T_POINTER \/ f_type (d_g d) = T_STRING ->
    exists b, Load.get_ptr m (places d) = Some (Load.To b) /\ text_copied cstr m R p b.
  Proof.
    intros Hd S Rn (xr & Tr & Hx) Np Hk. destruct (asks_at d x n _ xr Hd S Rn eq_refl Tr Hk) as (dr & Hdr & Edr & Exr & G1 & G2).
    destruct (seen dr Hdr) as (xr' & nr & pr & Sr & Epr & Rdr & Enr & Evr & Err & _). pose proof Sr as (Exr' & Enr' & Ear & Etr & _).
    assert (xr' = xr) as -> by congruence. destruct (i_cref x) eqn:Ec.
    2:{ destruct Hx as [Hx1 Hx2]. exists (places dr). split; [by apply G1|]. right. exists (d_e dr), (d_g dr). split; [|congruence]. rewrite <- Hx2, Ear. by apply R_of. }
    destruct Hx as (Hx1 & Hx2 & nr' & Enr2 & Rnr). rewrite Edr in Enr'. assert (nr' = nr) as -> by congruence.
    destruct (local_at dr Hdr) as [Ldr Fdr].
    assert (i_null xr = false) as Nr.
    { destruct Ldr as [i e g a o ks xd nd k t S' Ty Nr|i e g a o ks xd nd cnt S' Ty Nr|i e g a o xd nd q c' S' Ty Nr|i e g a o xd nd S' B]; cbn [d_i d_g d_ks d_a] in *; try (rewrite Ty in Etr; rewrite Etr in Hx1; discriminate).
      destruct S' as (Exd & _). assert (xd = xr) as -> by congruence. unfold bare in B. rewrite <- Etr, Hx1 in B. cbn in B. destruct B as (q & Eq & -> & _).
      apply Z.eqb_neq. congruence. }
    destruct Rdr as [_ Rd]. rewrite Rnr in Rd. cbn [print_info j_null j_kind] in Rd. rewrite Nr in Rd.
    assert (print_kind W cstr shown xr = KStr (cstr p)) as Ek by (unfold print_kind; rewrite Hx1, Hx2; done).
    rewrite Ek in Rd. destruct Rd as [Rn' Rv].
    assert (LoadFits.text (lnode dr) (cstr p)) as Ht by (unfold LoadFits.text; rewrite Evr; destruct Rv as [-> | ->]; [by right|by left]).
    assert (LoadSpec.asks_none (lnode dr)) as Hno by (split; [done|]; intros z; destruct Ht as [-> | ->]; done).
    destruct (HC (lnode dr) (in_sub dr Hdr)) as (_ & V & _). rewrite (ty_of dr Hdr) in V. unfold LoadFits.value_loaded in V.
    destruct (kind_type (d_g dr) Fdr) as [_ K2]. rewrite K2 in V by congruence. specialize (V Err). rewrite Enr, Rn' in V. destruct V as [_ V].
    destruct (V _ Ht) as (b & _ & _ & Gb & _ & Sb). exists (b, 0). split; [by rewrite (G2 eq_refl Hno)|]. left. done.
  Qed.

  Lemma all_copied e a g b : R e a g b -> LoadSpec.inside m b (load_stype g) /\ copied W cstr shown m ps R e a g b.
  Proof.
    intros (d & Hd & <- & <- & <- & ->). destruct (HC (lnode d) (in_sub d Hd)) as (In & V & Cs & Cp & Cn & _). rewrite (ty_of d Hd) in *. cbn zeta in *. split; [exact In|].
    destruct (local_at d Hd) as [Ld Fd]. rewrite kids_lnode in Cs, Cp, Cn.
    destruct (seen d Hd) as (x & n & p & S & Ep & Rd & En & Ev & Er & _).
    assert (Kin : forall c, c ∈ d_ks d -> c ∈ flat d0 /\ lnode c ∈ map lnode (d_ks d)).
    { intros c Hc. split; [by eapply flat_kid_in|]. by apply elem_of_list_In, in_map, elem_of_list_In. }
    pose proof (off_idx W names st d0 ns ps HL Num) as Off.
    destruct Ld as [i e g a o ks xd nd k t S' Ty Nr Etd Et FF|i e g a o ks xd nd cnt S' Ty Nr U FF|i e g a o xd nd q c' S' Ty Nr Nn Eq Nq A1 A2 E1 E2 E3 E4|i e g a o xd nd S' B]; cbn [d_i d_e d_g d_ks d_a] in *.
    - unfold copied. rewrite Ty. cbn. exists k, t. split; [done|]. split; [done|]. intros f Hf. apply elem_of_list_lookup in Hf as [y Hf].
      destruct (Forall2_lookup_l _ _ _ _ _ FF Hf) as (c & Hc & Q1 & Q2 & Q3 & Q4). pose proof (elem_of_list_lookup_2 _ _ _ Hc) as Hcin. destruct (Kin c Hcin) as [Hc1 Hc2].
      exists c. split; [done|]. split; [done|]. split; [done|]. split; [done|]. rewrite (Cs ltac:(left; unfold load_stype; by rewrite Ty) _ Hc2), (Off c Hc1), Q4. done.
    - unfold copied. rewrite Ty. cbn [Z.eqb]. change (T_ARRAY =? T_STRUCT) with false. change (T_ARRAY =? T_ARRAY) with true. cbv iota. exists cnt. split; [done|]. intros j Hj.
      assert (seqZ 0 cnt !! Z.to_nat j = Some j) as Lj by (apply lookup_seqZ; lia).
      destruct (Forall2_lookup_l _ _ _ _ _ FF Lj) as (c & Hc & Q1 & Q2 & Q3 & Q4). pose proof (elem_of_list_lookup_2 _ _ _ Hc) as Hcin. destruct (Kin c Hcin) as [Hc1 Hc2].
      exists c. split; [done|]. split; [done|]. split; [done|]. split; [done|]. rewrite (Cs ltac:(right; unfold load_stype; by rewrite Ty) _ Hc2), (Off c Hc1), Q4. done.
    - (* followed *)
      destruct S as (Ex & Enn & _ & Et & _). destruct S' as (Exd & End & _). assert (xd = x) as -> by congruence. assert (nd = n) as -> by congruence.
      destruct Rd as [_ Rd]. rewrite Nr in Rd. cbn [print_info j_null j_kind] in Rd. rewrite Nn in Rd.
      assert (print_kind W cstr shown x = KList) as Ek by (unfold print_kind; rewrite Et, Ty; done). rewrite Ek in Rd. destruct Rd as [Rv Rn].
      destruct (Cp ltac:(unfold load_stype; by rewrite Ty) ltac:(congruence) ltac:(done)) as (b & _ & _ & Gb & Pb).
      destruct (Kin c' ltac:(left)) as [Hc1 Hc2]. specialize (Pb _ Hc2). rewrite (Off c' Hc1), E4 in Pb.
      unfold copied. rewrite Ty. change (T_POINTER =? T_STRUCT) with false. change (T_POINTER =? T_ARRAY) with false. change (T_POINTER =? T_POINTER) with true. cbv iota.
      destruct Fd as ((_ & _ & _ & _ & _ & _ & _ & Ne & _) & _). destruct (Ne Ty A2) as (u & Eu & Nu). exists q, u. split; [done|]. split; [done|].
      apply Z.eqb_neq in Nq, Nu, A1, A2. rewrite Nq, Nu, A1, A2. cbn [orb]. exists (b, 0). split; [done|]. exists None, (content W g). split; [|done].
      exists c'. done.
    - destruct S' as (Exd & End & _). pose proof S as (Ex & Enn & Ea & Et & _). assert (xd = x) as -> by congruence. assert (nd = n) as -> by congruence. pose proof Fd as ((F1 & F2 & _) & _).
      destruct (Z.eqb_spec (f_type g) T_POINTER) as [Ty|N1].
      { unfold copied. rewrite Ty. change (T_POINTER =? T_STRUCT) with false. change (T_POINTER =? T_ARRAY) with false. change (T_POINTER =? T_POINTER) with true. cbv iota.
        unfold bare in B. rewrite Ty in B. change (T_POINTER =? T_POINTER) with true in B. cbv iota in B. destruct B as (q & u & Eq & Eu & B). exists q, u. split; [done|]. split; [done|].
        assert (Null : i_null x = true -> is_ref n = false -> Load.get_ptr m (places (D i e g a o [])) = Some Load.Null).
        { intros Nl Rn. apply Cn; [unfold load_stype; by rewrite Ty|done|]. left. destruct Rd as [_ Rd]. rewrite Rn in Rd. cbn [print_info j_null] in Rd. rewrite Nl in Rd. destruct Rd. congruence. }
        destruct ((q =? 0) || (u =? 0)) eqn:Ez; [destruct B; by apply Null|]. apply orb_false_elim in Ez as [Eq0 Eu0]. apply Z.eqb_neq in Eq0.
        destruct ((f_aux g =? T_VOID) || (f_aux g =? T_NONE)) eqn:Ev0.
        - destruct B as [Nl B]. destruct (is_ref n) eqn:Rn.
          + right. destruct B as [(xr & Tr & Ec & Ed)|Tt].
            * destruct (asks_at (D i e g a o []) x n _ xr Hd S Rn eq_refl Tr (or_introl Ty)) as (dr & Hdr & Edr & Exr & G1 & _). exists (places dr). split; [by apply G1|]. left.
              destruct (local_at dr Hdr) as [Ldr _]. destruct (local_stands W st dr Ldr) as (x' & n' & Ex' & _ & Ea' & _). assert (x' = xr) as -> by congruence.
              exists (d_e dr), (d_g dr). rewrite <- Ed, Ea'. by apply R_of.
            * destruct (text_at (D i e g a o []) x n q Hd S Rn Tt Eq0 (or_introl Ty)) as (b & Gb & Tb). exists b. split; [done|by right].
          + left. split; [by apply Null|]. intros e' g' b' (dr & Hdr & _ & Ed & _). destruct (local_at dr Hdr) as [Ldr _].
            destruct (local_stands W st dr Ldr) as (x' & n' & Ex' & En' & Ea' & _). apply (B (d_i dr) x'); [|done|congruence].
            by destruct (nodes_nonzero _ _ _ HT _ (in_nodes d0 dr Hdr)).
        - destruct B as (_ & Rn & Ec & _ & xr & Tr & Ed & Etr & Hc).
          destruct (asks_at (D i e g a o []) x n _ xr Hd S Rn eq_refl Tr (or_introl Ty)) as (dr & Hdr & Edr & Exr & G1 & _). exists (places dr). split; [by apply G1|].
          destruct (local_at dr Hdr) as [Ldr _]. destruct (local_stands W st dr Ldr) as (x' & n' & Ex' & _ & Ea' & Et' & _ & _ & _ & h & Eh & _ & Eth & _). assert (x' = xr) as -> by congruence.
          exists (d_e dr), (d_g dr). split; [rewrite <- Ed, Ea'; by apply R_of|]. split; [congruence|]. intros Cc. destruct (Hc Cc) as (h' & Eh' & Et''). congruence. }
      destruct (Z.eqb_spec (f_type g) T_STRING) as [Ty|N2].
      { unfold copied. rewrite Ty. change (T_STRING =? T_STRUCT) with false. change (T_STRING =? T_ARRAY) with false. change (T_STRING =? T_POINTER) with false. change (T_STRING =? T_STRING) with true. cbv iota.
        unfold bare in B. rewrite Ty in B. change (T_STRING =? T_POINTER) with false in B. change (T_STRING =? T_STRING) with true in B. cbv iota in B. destruct B as (q & Eq & Enl & Nr & Tt). exists q. split; [done|].
        destruct (is_ref n) eqn:Rn.
        - destruct (Z.eqb_spec q 0) as [E0|N0]; [by specialize (Nr E0)|]. by apply (text_at (D i e g a o []) x n q Hd S Rn (Tt eq_refl) N0 (or_intror Ty)).
        - unfold LoadFits.value_loaded in V. destruct (kind_type g Fd) as [_ K2]. rewrite K2 in V by done. specialize (V Er). rewrite En in V.
          destruct Rd as [_ Rd]. rewrite Rn in Rd. cbn [print_info j_null j_kind] in Rd. rewrite Enl in Rd. destruct (Z.eqb_spec q 0) as [E0|N0].
          + destruct Rd as [Rd _]. by rewrite Rd in V.
          + assert (print_kind W cstr shown x = KStr (cstr q)) as Ek by (unfold print_kind; rewrite Et, Ty, Ea, Eq; done). rewrite Ek in Rd. destruct Rd as [Rn' Rv].
            rewrite Rn' in V. destruct V as [_ V]. destruct (V (cstr q)) as (b & _ & _ & Gb & _ & Sb).
            { unfold LoadFits.text. rewrite Ev. destruct Rv as [-> | ->]; [by right|by left]. }
            exists (b, 0). split; [done|]. by left. }
      assert (f_type g <> T_STRUCT /\ f_type g <> T_ARRAY) as [N4 N5].
      { unfold bare in B. apply Z.eqb_neq in N1, N2. rewrite N1, N2 in B. destruct (Z.eqb_spec (f_type g) T_FUNC) as [Ef|]; [rewrite Ef; done|].
        destruct (Z.eqb_spec (f_type g) T_FUNC_TYPE) as [Ef|]; [rewrite Ef; done|]. cbn in B. tauto. }
      unfold copied. pose proof N1 as N1'. pose proof N2 as N2'. pose proof N4 as N4'. pose proof N5 as N5'. apply Z.eqb_neq in N1', N2', N4', N5'. rewrite N1', N2', N4', N5'.
      destruct (Z.eqb_spec (f_type g) T_CHAR_ARRAY) as [Ty|N6].
      { destruct (leaf_seen W names cstr shown st d0 ns ps HL HR (D i e g a o []) Hd eq_refl (or_introl Ty)) as (h & p' & Dc & _ & Ev' & _ & Hl). cbn [d_g d_a] in Hl, Dc.
        destruct Hl as [Hl|([Hl|Hl] & _)]; [|by rewrite Ty in Hl|by rewrite Ty in Hl]. destruct HS as (_ & _ & S3). destruct (S3 a h) as (s & Es). rewrite Ty, Es in Hl. destruct Hl as [_ Hl].
        exists h, s. split; [done|]. split; [done|]. unfold LoadFits.value_loaded in V. assert (Load.s_kind (load_stype g) = Load.CharArray) as Ek by (unfold load_stype; by rewrite Ty). rewrite Ek in V. apply V.
        unfold LoadFits.text. rewrite Ev'. destruct Hl as [-> | ->]; [by right|by left]. }
      destruct (Z.eqb_spec (f_type g) T_VOID) as [Ty|N7]; [done|].
      assert (single (f_type g)) as Sg by done.
      destruct (leaf_seen W names cstr shown st d0 ns ps HL HR (D i e g a o []) Hd eq_refl (or_intror Sg)) as (h & p' & Dc & Ep' & Ev' & En' & Hl). cbn [d_g d_a d_i] in *.
      exists h, (public (lns st) i), p'. split; [done|]. split; [done|]. split; [tauto|].
      unfold LoadFits.value_loaded in V. destruct (Z.eqb_spec (f_type g) T_ENUM) as [Ty|N8].
      { assert (Load.s_kind (load_stype g) = Load.Enum) as Ek by (unfold load_stype; by rewrite Ty). rewrite Ek in V. exact V. }
      assert (Load.s_kind (load_stype g) = Load.Scalar (scalar_size g)) as Ek.
      { unfold load_stype, scalar_size. cbn. destruct (f_type g =? T_BITFIELD); [done|]. unfold load_kind. apply Z.eqb_neq in N6, N7, N8, F1. rewrite N1', N2', N4', N5', N6, N7, N8, F1.
        unfold union_type in F2. apply orb_false_elim in F2 as [F2 F3]. rewrite F3. unfold union_type. by rewrite F2, F3. }
      rewrite Ek in V. exact V.
  Qed.

  (** A string that does not lead to an array of characters has the pointer of a
      string with the same characters that is no reference. *)
  Lemma string_owner d p : d ∈ flat d0 -> f_type (d_g d) = T_STRING -> w_ptr W (d_a d) = Some p -> p <> 0 ->
    (forall e g b, R e p g b -> f_type g <> T_CHAR_ARRAY) ->
    exists o x n, o ∈ flat d0 /\ s_info st !! d_i o = Some x /\ lns st !! d_i o = Some n /\ i_type x = T_STRING /\ w_ptr W (i_data x) = Some p /\ is_ref n = false /\
      Load.get_ptr m (places d) = Load.get_ptr m (places o).
  Proof.
    intros Hd Ty Wp Np Nc. destruct (seen d Hd) as (x & n & q & S & _ & Rd & En & Ev & Er & _). pose proof S as (Ex & Enn & Ea & Et & _).
    destruct (is_ref n) eqn:Rn.
    2:{ exists d, x, n. split; [done|]. split; [done|]. split; [done|]. split; [congruence|]. split; [congruence|]. done. }
    assert (to_text W st x n p) as (xr & Tr & Hx).
    { destruct (local_at d Hd) as [Ld _]. destruct Ld as [i e g a o ks xd nd k t S' Ty' Nr|i e g a o ks xd nd cnt S' Ty' Nr|i e g a o xd nd q' c' S' Ty' Nr|i e g a o xd nd S' B]; cbn [d_i d_g d_ks d_a] in *; try (rewrite Ty in Ty'; discriminate).
      destruct S' as (Exd & End & _). assert (xd = x) as -> by congruence. assert (nd = n) as -> by congruence. unfold bare in B. rewrite Ty in B.
      change (T_STRING =? T_POINTER) with false in B. change (T_STRING =? T_STRING) with true in B. cbv iota in B. destruct B as (q' & Eq & _ & _ & Tt).
      assert (q' = p) as -> by congruence. by apply Tt. }
    destruct (asks_at d x n _ xr Hd S Rn eq_refl Tr (or_intror Ty)) as (dr & Hdr & Edr & Exr & G1 & G2).
    destruct (seen dr Hdr) as (xr' & nr & pr & Sr & Epr & Rdr & Enr & Evr & Err & _). pose proof Sr as (Exr' & Enr' & Ear & Etr & _).
    assert (xr' = xr) as -> by congruence. destruct (i_cref x) eqn:Ec.
    2:{ destruct Hx as [Hx1 Hx2]. exfalso. apply (Nc (d_e dr) (d_g dr) (places dr)); [|congruence]. rewrite <- Hx2, Ear. by apply R_of. }
    destruct Hx as (Hx1 & Hx2 & nr' & Enr2 & Rnr). rewrite Edr in Enr'. assert (nr' = nr) as -> by congruence.
    exists dr, xr, nr. rewrite Edr in *. split; [done|]. split; [done|]. split; [done|]. split; [done|]. split; [done|]. split; [done|]. apply G2; [done|].
    destruct (local_at dr Hdr) as [Ldr Fdr].
    assert (i_null xr = false) as Nr.
    { destruct Ldr as [i e g a o ks xd nd k t S' Ty' Nr|i e g a o ks xd nd cnt S' Ty' Nr|i e g a o xd nd q' c' S' Ty' Nr|i e g a o xd nd S' B]; cbn [d_i d_g d_ks d_a] in *; try (rewrite Ty' in Etr; rewrite Etr in Hx1; discriminate).
      destruct S' as (Exd & _). assert (xd = xr) as -> by congruence. unfold bare in B. rewrite <- Etr, Hx1 in B. cbn in B. destruct B as (q' & Eq & -> & _). apply Z.eqb_neq. congruence. }
    destruct Rdr as [_ Rdr]. rewrite Rnr in Rdr. cbn [print_info j_null j_kind] in Rdr. rewrite Nr in Rdr.
    assert (print_kind W cstr shown xr = KStr (cstr p)) as Ek by (unfold print_kind; rewrite Hx1, Hx2; done).
    rewrite Ek in Rdr. destruct Rdr as [_ Rv]. split; [done|]. intros z. rewrite Evr. destruct Rv as [-> | ->]; done.
  Qed.

  (** Strings that were the same text still are. *)
  Hypothesis HO : forall i j x y n' k a, i <> j -> i <> 0%nat -> j <> 0%nat -> s_info st !! i = Some x -> s_info st !! j = Some y ->
    lns st !! i = Some n' -> lns st !! j = Some k -> i_type x = T_STRING -> i_type y = T_STRING ->
    w_ptr W (i_data x) = Some a -> w_ptr W (i_data y) = Some a -> a <> 0 -> is_ref n' = true \/ is_ref k = true.
  Lemma strings_shared e a g b e' a' g' b' p : R e a g b -> R e' a' g' b' -> f_type g = T_STRING -> f_type g' = T_STRING ->
    w_ptr W a = Some p -> w_ptr W a' = Some p -> p <> 0 -> (forall e g b, R e p g b -> f_type g <> T_CHAR_ARRAY) ->
    Load.get_ptr m b = Load.get_ptr m b'.
  Proof.
    intros (d & Hd & <- & <- & <- & ->) (d' & Hd' & <- & <- & <- & ->) T1 T2 W1 W2 Np Nc.
    destruct (string_owner d p Hd T1 W1 Np Nc) as (o & x & n & Ho & Ex & En & Tx & Wx & Rn & ->).
    destruct (string_owner d' p Hd' T2 W2 Np Nc) as (o' & x' & n' & Ho' & Ex' & En' & Tx' & Wx' & Rn' & ->).
    rewrite !idx_lnode. destruct (decide (d_i o = d_i o')) as [->|Ne]; [done|].
    destruct (nodes_nonzero _ _ _ HT _ (in_nodes d0 o Ho)) as [N1 _]. destruct (nodes_nonzero _ _ _ HT _ (in_nodes d0 o' Ho')) as [N2 _].
    destruct (HO _ _ _ _ _ _ _ Ne N1 N2 Ex Ex' En En' Tx Tx' Wx Wx' Np); congruence.
  Qed.
End Top.
