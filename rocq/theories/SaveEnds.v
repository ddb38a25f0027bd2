(** mr_save (src/mr_save.c:1553-1612) comes to an end. *)
From stdpp Require Import sets.
From Verif Require Import Base Ptrs ChildrenProof DfsProof Save SaveForest SaveSpec SaveInv SaveSteps SaveRun SaveTop SavePost SaveDone SaveTotalSpec SaveTotal SaveSize P_Ptrs.
Local Open Scope Z_scope.

Lemma follow_more W depth : forall fuel fuel' st i r, follow_loop W fuel depth st i = Some r -> (fuel <= fuel')%nat -> follow_loop W fuel' depth st i = Some r.
Proof.
  induction fuel as [|fuel IH]; intros fuel' st i r H L; [done|]. destruct fuel' as [|fuel']; [lia|]. cbn [follow_loop] in *.
  destruct (Nat.ltb i (length (s_info st))); [|done]. apply bind_Some in H as (x & -> & H). cbn [mbind option_bind]. destruct (followed x).
  - apply bind_Some in H as ([n st1] & -> & H). cbn [mbind option_bind]. destruct (n =? 0); [done|]. apply IH; [done|lia].
  - apply IH; [done|lia].
Qed.

(** ** Post-processing *)
Section PostDef.
  Context (W : world) (s0 : sst) (K : nat -> list nat) (D : nat -> fd) (I : Inv W s0 K D []).
  Context (Hchain : forall i x, i <> 0%nat -> s_info s0 !! i = Some x -> (i_chain x < i)%nat) (Hhead : forall k, (s_heads s0 k < length (s_info s0))%nat).
  Let R := v_for _ _ _ _ _ I.
  Let Ln := v_len _ _ _ _ _ I.

  Lemma linked_next ns h l c n : linked ns h l -> c ∈ l -> ns !! c = Some n -> next n = 0%nat \/ next n ∈ l.
  Proof.
    revert h. induction l as [|x l IH]; intros h Hl Hc En; [by apply elem_of_nil in Hc|]. destruct Hl as (-> & _ & n' & En' & Hl).
    apply elem_of_cons in Hc as [->|Hc].
    - rewrite En in En'. injection En' as <-. destruct l as [|y l]; [by left|]. destruct Hl as (-> & _). right. right. left.
    - destruct (IH _ Hl Hc En) as [?|?]; [by left|right; by right].
  Qed.
  Lemma next_lt i n : i <> 0%nat -> lns s0 !! i = Some n -> (next n < length (lns s0))%nat.
  Proof.
    intros Iz En. pose proof (lookup_lt_Some _ _ _ En) as Li. destruct (Nat.eq_dec (parent n) 0%nat) as [E|E].
    - destruct (fo_root _ _ R i n Iz En E) as [_ ->]. lia.
    - assert (i ∈ K (parent n)) as Hk by (apply (fo_in _ _ R); by rewrite (parf_lu _ _ _ En)).
      destruct (lookup_lt_is_Some_2 (lns s0) (parent n)) as [m Em]; [by eapply (fo_par _ _ R)|]. pose proof (fo_kids _ _ R _ _ Em) as Fk.
      destruct (is_ref m); [rewrite Fk in Hk; by apply elem_of_nil in Hk|]. destruct (linked_next _ _ _ _ _ Fk Hk En) as [->|H]; [lia|].
      by destruct (kid_lt _ _ R _ _ H) as (_ & ? & _).
  Qed.

  Lemma bucket_def st a : (forall j x, j <> 0%nat -> s_info st !! j = Some x -> (i_chain x < j)%nat) ->
    forall fuel h best, (h < fuel)%nat -> (h < length (s_info st))%nat -> (best < length (s_info st))%nat -> exists r, bucket_loop fuel st a h best = Some r /\ (r < length (s_info st))%nat.
  Proof.
    intros Hc. induction fuel as [|fuel IH]; intros h best Hf Lh Lb; [lia|]. cbn [bucket_loop]. destruct (Nat.eqb_spec h 0) as [|Nh]; [eauto|].
    destruct (lookup_lt_is_Some_2 _ _ Lh) as [x Ex]. rewrite (rd_lu _ _ _ Ex). cbn [mbind option_bind]. pose proof (Hc _ _ Nh Ex).
    destruct (i_data x =? a).
    - destruct (Nat.eqb best 0); [apply IH; lia|]. destruct (lookup_lt_is_Some_2 _ _ Lb) as [y Ey]. rewrite (rd_lu _ _ _ Ey). cbn [mbind option_bind].
      apply IH; [lia|lia|]. destruct (i_size y <? i_size x); done.
    - apply IH; lia.
  Qed.

  Lemma node_def st i : PR W s0 st i -> i <> 0%nat -> (i < length (s_info s0))%nat -> exists st1 st2, resolve_void W st i = Some st1 /\ resolve_content st1 i = Some st2.
  Proof.
    intros P Iz Li. destruct (lookup_lt_is_Some_2 _ _ Li) as [x0 E0]. pose proof Li as Li'. rewrite Ln in Li'. destruct (lookup_lt_is_Some_2 _ _ Li') as [n0 En0].
    destruct (p_info _ _ _ _ P _ _ _ E0 En0) as (x & n & Ex & En & Sx & Sn & Same & _). destruct Same as (Nx & Cx & Rx & Fx); [lia|].
    assert (forall st1, frm i st st1 -> (forall n1, lns st1 !! i = Some n1 -> is_ref n1 = true -> (first_child n1 < length (lns s0))%nat) ->
      exists st2, resolve_content st1 i = Some st2) as CD.
    { intros st1 F Hr. destruct (r_info _ _ _ F _ _ Ex) as (x1 & Ex1 & _). destruct (r_link _ _ _ F _ _ En) as (n1 & En1 & _).
      unfold resolve_content. rewrite (rd_lu _ _ _ Ex1), (rd_lu _ _ _ En1). cbn [mbind option_bind]. destruct (is_ref n1) eqn:R1; [|cbn; eauto]. cbn [andb].
      destruct (negb (i_cref x1)); [|eauto]. specialize (Hr n1 En1 R1). destruct (lookup_lt_is_Some_2 _ _ Hr) as [c0 Ec0].
      pose proof Hr as Hr'. rewrite <- Ln in Hr'. destruct (lookup_lt_is_Some_2 _ _ Hr') as [y0 Ey0].
      destruct (p_info _ _ _ _ P _ _ _ Ey0 Ec0) as (y & c & Ey & Ec & _ & (Pc & _) & _). destruct (r_link _ _ _ F _ _ Ec) as (c1 & Ec1 & (Pc1 & _) & _).
      rewrite (rd_lu _ _ _ Ec1). cbn [mbind option_bind]. destruct (Nat.eqb (parent c1) 0); [eauto|].
      assert (parent c1 < length (lns s0))%nat as Lp by (rewrite Pc1, Pc; by eapply (fo_par _ _ R)).
      destruct (lookup_lt_is_Some_2 _ _ Lp) as [m0 Em0]. pose proof Lp as Lp'. rewrite <- Ln in Lp'. destruct (lookup_lt_is_Some_2 _ _ Lp') as [p0 Ep0].
      destruct (p_info _ _ _ _ P _ _ _ Ep0 Em0) as (p & m & Ep & Em & _). destruct (r_info _ _ _ F _ _ Ep) as (p1 & Ep1 & _). destruct (r_link _ _ _ F _ _ Em) as (m1 & Em1 & _).
      rewrite (rd_lu _ _ _ Ep1). cbn [mbind option_bind]. destruct (i_type p1 =? T_STRING); [|eauto].
      rewrite (upd_link_eq _ _ _ _ En1). cbn [mbind option_bind]. set (sa := SSt _ _ _). rewrite (upd_info_eq sa i x1) by done. cbn [mbind option_bind]. set (sb := SSt _ _ _).
      destruct (lookup_lt_is_Some_2 (lns sb) (parent c1)) as [m2 Em2].
      { cbn. rewrite insert_length. by eapply lookup_lt_Some. }
      rewrite (upd_link_eq sb _ _ _ Em2). eauto. }
    assert (is_ref n = true -> (first_child n < length (lns s0))%nat) as Rf.
    { intros Hr. rewrite Rx in Hr. destruct (v_ref _ _ _ _ _ I i x0 n0 E0 En0 Hr) as (_ & _ & xr & nr & _ & Er & _). rewrite Fx. by eapply lookup_lt_Some. }
    assert (forall st1, frm i st st1 -> lns st1 = lns st -> exists st2, resolve_content st1 i = Some st2) as CE.
    { intros st1 F E. apply CD; [done|]. intros n1. rewrite E, En. intros [= <-]. done. }
    assert (i_type x = i_type x0 /\ i_data x = i_data x0) as (Tx & Dx) by (destruct Sx as (? & ? & ? & ? & _); done).
    unfold resolve_void. rewrite (rd_lu _ _ _ Ex), (rd_lu _ _ _ En). cbn [mbind option_bind].
    assert (exists st2, resolve_content st i = Some st2) as [st2 Hst2] by (apply CE; [apply frm_refl|done]).
    destruct (Z.eqb_spec (i_type x) T_POINTER) as [T|T1].
    { destruct (((i_aux x =? T_NONE) || (i_aux x =? T_VOID)) && negb (i_null x)); [|eauto].
      pose proof (proj2 (v_node _ _ _ _ _ I i x0 Iz (not_elem_of_nil _) E0)) as No. unfold node_body in No. rewrite <- Tx, T in No. cbn in No. destruct No as (p & Wp & _).
      rewrite <- Dx in Wp. rewrite Wp. cbn [mbind option_bind]. rewrite (upd_info_eq _ _ _ _ Ex). cbn [mbind option_bind]. set (sa := SSt _ _ _).
      assert (frm i st sa) as Fa by (apply (frm_info st i x); [done|]; repeat split; auto).
      assert (length (s_info sa) = length (s_info s0)) as La by (rewrite (r_len _ _ _ Fa); apply P).
      assert (forall j y, j <> 0%nat -> s_info sa !! j = Some y -> (i_chain y < j)%nat) as Hc.
      { intros j y Jz Ey. assert (j < length (s_info s0))%nat as Lj by (rewrite <- La; by eapply lookup_lt_Some). destruct (lookup_lt_is_Some_2 _ _ Lj) as [y0 Ey0].
        pose proof Lj as Lj'. rewrite Ln in Lj'. destruct (lookup_lt_is_Some_2 _ _ Lj') as [m0 Em0]. destruct (p_info _ _ _ _ P _ _ _ Ey0 Em0) as (y1 & _ & Ey1 & _ & Sy & _).
        destruct (r_info _ _ _ Fa _ _ Ey1) as (y2 & Ey2 & Sy2 & _). rewrite Ey in Ey2. injection Ey2 as <-. destruct Sy as (_ & _ & _ & _ & _ & C1), Sy2 as (_ & _ & _ & _ & _ & C2).
        rewrite C2, C1. by apply Hchain. }
      assert (s_heads sa (key p) < length (s_info sa))%nat as Lh by (rewrite (r_heads _ _ _ Fa), (p_heads _ _ _ _ P), La; apply Hhead).
      destruct (bucket_def sa p Hc (S (length (s_info sa))) (s_heads sa (key p)) 0%nat) as (r & Hb & Lr); [lia|done|lia|].
      rewrite Hb. cbn [mbind option_bind]. destruct (Nat.eqb r 0).
      { destruct (CE sa Fa ltac:(done)) as [s2 ?]. eauto. }
      unfold make_ref. rewrite (upd_link_eq sa i n) by done. cbn [mbind option_bind]. set (sb := SSt _ _ _).
      assert (frm i sa sb) as Fb by (apply (frm_link sa i i n); [done| |done]; repeat split; auto).
      assert (length (lns sb) = length (lns s0)) as Lb by (rewrite (r_lenl _ _ _ Fb), (r_lenl _ _ _ Fa); apply P).
      assert (r < length (lns sb))%nat as Lr' by (rewrite Lb, <- Ln, <- La; done). destruct (lookup_lt_is_Some_2 _ _ Lr') as [mr Emr].
      rewrite (upd_link_eq sb r mr) by done. set (sc := SSt _ _ _). assert (frm i sb sc) as Fc by (apply (frm_link sb i r mr); [done|repeat split; auto|done]).
      destruct (CD sc) as [s2 ?]; [|intros n1 En1 _|eauto].
      - eapply frm_trans; [exact Fa|]. eapply frm_trans; [exact Fb|exact Fc].
      - assert (lns sb !! i = Some (mark_ref (set_first_child n r))) as Enb by (cbn; apply list_lookup_insert; by eapply lookup_lt_Some).
        assert (first_child n1 = r) as ->; [|by rewrite <- Lb]. unfold sc in En1. cbn [lns ra s_ptrs] in En1. destruct (Nat.eq_dec r i) as [Er|Nr].
        + rewrite Er in *. rewrite Enb in Emr. injection Emr as <-. rewrite list_lookup_insert in En1 by (by eapply lookup_lt_Some). by injection En1 as <-.
        + rewrite list_lookup_insert_ne in En1 by done. rewrite Enb in En1. by injection En1 as <-. }
    destruct (Z.eqb_spec (i_type x) T_STRING) as [T|T2].
    { destruct (is_ref n) eqn:Rn; [eauto|]. rewrite (upd_link_eq _ _ _ _ En). set (sa := SSt _ _ _).
      destruct (CD sa) as [s2 ?]; [|intros n1 En1 R1|eauto].
      - apply (frm_link st i i n); [done| |done]. repeat split; auto.
      - cbn in En1. rewrite list_lookup_insert in En1 by (by eapply lookup_lt_Some). injection En1 as <-. cbn in R1. congruence. }
    destruct (Z.eqb_spec (i_type x) T_CHAR_ARRAY) as [T|T3]; [|eauto]. destruct (Nat.eqb (parent n) 0); [eauto|].
    assert (forall j, (j < length (lns s0))%nat -> exists y, s_info st !! j = Some y) as Has.
    { intros j Lj. apply lookup_lt_is_Some_2. by rewrite (p_len _ _ _ _ P), Ln. }
    destruct Sn as (Pn & Xn & _). destruct (Has (parent n)) as [px Epx]; [rewrite Pn; by eapply (fo_par _ _ R)|]. rewrite (rd_lu _ _ _ Epx). cbn [mbind option_bind].
    destruct (((i_type px =? T_ARRAY) || (i_type px =? T_POINTER)) && negb (Nat.eqb (next n) 0)); [|eauto].
    destruct (Has (next n)) as [y Ey]; [rewrite Xn; by eapply next_lt|]. rewrite (rd_lu _ _ _ Ey). cbn [mbind option_bind]. rewrite (upd_info_eq _ _ _ _ Ex).
    set (sa := SSt _ _ _). destruct (CE sa) as [s2 ?]; [|done|eauto]. apply (frm_info st i x); [done|]. repeat split; auto.
  Qed.
End PostDef.

Section Ends.
  Context (W : world) (HW : wf_world W) (root : fd) (a0 : Z) (HR : wf_root W root) (HT : tame W root a0).

  Lemma post_def s0 K D : FI W a0 (root_fd root) s0 K D (length (s_info s0)) -> Good W root a0 s0 ->
    exists fuel, forall fuel', (fuel <= fuel')%nat -> exists st, post_process W fuel' s0 = Some st.
  Proof.
    intros L G. pose proof (l_inv _ _ _ _ _ _ _ L) as I. pose proof (v_for _ _ _ _ _ I) as R. pose proof (f_len W a0 _ s0 K D L) as Ln.
    assert (forall i x n, i <> 0%nat -> s_info s0 !! i = Some x -> lns s0 !! i = Some n -> voidp x = true -> is_ref n = false /\ first_child n = 0%nat) as V0.
    { intros i x n Hi Ex En V. by destruct (f_void W a0 _ s0 K D L i x n Hi Ex En V) as (_ & ? & ?). }
    assert (forall k st i, PR W s0 st i -> i <> 0%nat -> (i + k <= length (s_info s0))%nat -> exists st', post_loop W k st i = Some st') as Loop.
    { induction k as [|k IH]; intros st i P Iz Li; [cbn; eauto|]. cbn [post_loop].
      destruct (node_def W s0 K D I (gd_chain _ _ _ _ G) (gd_head _ _ _ _ G) st i P Iz ltac:(lia)) as (st1 & st2 & H1 & H2). rewrite H1. cbn [mbind option_bind]. rewrite H2. cbn [mbind option_bind].
      apply IH; [|lia|lia].
      apply (node_step W s0 Ln (parf_lt _ _ R) (v_chain _ _ _ _ _ I) (f_cref W a0 _ s0 K D L) V0 (f_refd W a0 _ s0 K D L) st i st1 st2 P Iz ltac:(lia) H1 H2). }
    pose proof (fo_len _ _ R) as L1. rewrite <- Ln in L1.
    destruct (Loop (length (s_info s0) - 1)%nat s0 1%nat) as (s1 & Hp); [|done|lia|].
    { apply (PR_init W s0 Ln (parf_lt _ _ R) (v_chain _ _ _ _ _ I) (f_cref W a0 _ s0 K D L) V0 (f_refd W a0 _ s0 K D L)). }
    pose proof (f_post W a0 _ s0 K D L s1 Hp) as P. destruct (f_tree W a0 _ s0 K D L s1 P) as (ks & At & Nd & _).
    destruct (C50_renumber _ _ _ At Nd) as (fu & ns' & Hd & _). exists fu. intros fuel' Lf. unfold post_process. rewrite Hp. cbn [mbind option_bind]. rewrite Hd by done. eauto.
  Qed.

  Context (rank : nat -> nat) (Hrank : forall k t f j, w_tds W !! k = Some t -> f ∈ t_fields t ->
      value_type f = T_STRUCT \/ union_type (value_type f) = true -> f_tdp f = Some j -> (rank j < rank k)%nat).
  Context (P : list Z) (HP : forall e g a p, visits W root a0 e g a -> f_type g = T_POINTER \/ f_type g = T_STRING -> w_ptr W a = Some p -> p ∈ P).
  Let mx := meas_max W root rank.
  Let nx := node_max W root rank P.

  Lemma inner_tot d : TotOK W root a0 (meas W root rank) d (save_inner W d).
  Proof.
    eapply save_inner_tot; [done|done|..].
    - by apply h_field.
    - by apply h_elem.
    - by apply h_member.
    - by apply h_string.
    - by apply h_known.
    - by apply h_struct.
    - by apply h_cell.
    - by apply h_ref.
  Qed.

  Lemma follow_def st K D i x depth : FI W a0 (root_fd root) st K D i -> Good W root a0 st -> i <> 0%nat -> s_info st !! i = Some x -> followed x = true ->
    (mx < depth)%nat -> exists st', save_pointer_content W (save_inner W depth) i st = Some (1, st') /\ Good W root a0 st'.
  Proof.
    intros F G Iz Ex Fl Ld. pose proof (l_inv _ _ _ _ _ _ _ F) as I. pose proof (l_after _ _ _ _ _ _ _ F i x Ex) as Nd.
    unfold followed in Fl. rewrite !andb_true_iff, !negb_true_iff, orb_false_iff in Fl.
    destruct Fl as (((Tx & Nv) & Nn) & Nl & Op). apply Z.eqb_eq in Tx. apply Z.eqb_neq in Nv, Nn. specialize (Nd Tx (Nat.le_refl _)).
    destruct (v_fdp_c _ _ _ _ _ I i x Iz (not_elem_of_nil _) Ex) as (h & Eh & Nh & Th & Bh & _).
    pose proof (proj2 (v_node _ _ _ _ _ I i x Iz (not_elem_of_nil _) Ex)) as No. unfold node_body in No. rewrite Tx in No. cbn in No.
    destruct No as (p & Wp & _ & No). destruct (Z.eqb_spec p 0) as [Pz|Pz]; [congruence|]. destruct No as [Us Ns]. rewrite Nl in Ns. symmetry in Ns. apply Z.eqb_neq in Ns.
    destruct (v_id _ _ _ _ _ I i x Iz Ex) as (Td & _ & Ax & Fo & _). specialize (Ax ltac:(rewrite Tx; done)).
    assert (i_type x <> T_CHAR_ARRAY) as Nc by (by rewrite Tx).
    pose proof (node_vis W root a0 rank Hrank st K D i F i x Iz Ex Nc) as V.
    assert (content_fd W x = Some (content W (D i))) as Hk.
    { unfold content_fd, target_size, content. rewrite Eh, Ax, Bh, Th, Us. unfold unit_size in Us. destruct (type_size (f_aux (D i)) =? 0).
      - destruct (f_tdp (D i)) as [k|]; [|by injection Us as <-]. unfold rd. destruct (w_tds W !! k) as [t|]; [|done]. by injection Us as <-.
      - by injection Us as <-. }
    set (k := content W (D i)) in *. assert (f_size k = i_size x) as Sk by (unfold k, content; by rewrite Us).
    unfold save_pointer_content. rewrite (rd_lu _ _ _ Ex). cbn [mbind option_bind]. rewrite Hk. cbn [mbind option_bind].
    rewrite Sk, (proj2 (Z.eqb_neq _ _) Ns). cbv zeta. rewrite Z.div_same by done.
    assert (exists nd, lns st !! i = Some nd /\ is_ref nd = false /\ first_child nd = 0%nat /\ K i = []) as (nd & En & Rn & Fc & Ki).
    { destruct (lookup_lt_is_Some_2 (lns st) i) as [nd En]; [rewrite <- (v_len _ _ _ _ _ I); by eapply lookup_lt_Some|]. exists nd.
      destruct (is_ref nd) eqn:Rn; [destruct Nd; right; eauto|]. pose proof (fo_kids _ _ (v_for _ _ _ _ _ I) _ _ En) as Lk. rewrite Rn in Lk.
      destruct (K i) eqn:Ki; [|destruct Nd; left; by rewrite Ki]. done. }
    rewrite (rd_lu _ _ _ En). cbn [mbind option_bind]. rewrite Fc. cbn [resize_loop Nat.eqb]. cbn [mbind option_bind].
    change (Z.to_nat 1) with 1%nat. cbn [elems_loop]. change (0 <? 1) with true. cbv iota. rewrite Wp.
    cbn [mbind option_bind]. rewrite Z.mul_0_l, Z.add_0_r, Z.sub_0_r.
    assert (vis_k : visits W root a0 None k p).
    { eapply vi_content; [exact V|congruence|done|done|congruence|congruence]. }
    pose proof (vis_fam W HW root a0 HR HT _ _ _ vis_k) as Fk.
    assert (unit_size W (f_type k) (f_tdp k) = Some (f_size k)) as Uk by (rewrite Sk; exact Us).
    pose proof (unit_size_bound W HW _ _ _ Uk) as Bk.
    destruct (inner_tot depth p k 1 st i K D []) as (st2 & H2 & G2); [|done|..].
    { split; [done|]. split; [done|]. split; [eauto|]. exists x. split; [done|]. split; [by intros o ?%elem_of_nil|]. split; [by right|].
      split; [by left|]. split; [apply Fk|]. split; [intros _; right; split; done|]. split; [done|].
      split; [rewrite Z.mul_1_r; apply Bk|]. intros _. split; [done|]. split; [done|]. split; [done|]. rewrite Tx. cbn. split; [done|]. split; [done|].
      intros _. split; [done|]. split; [change (f_size k <> 0); by rewrite Sk|]. split; [done|]. rewrite <- Ax. done. }
    { left. assert (pencl st D i = None) as ->. { unfold pencl, encl0. rewrite Ex, Tx. by destruct (Nat.eqb i 0). } split; [done|].
      pose proof (meas_le W root rank Hrank k Fk). unfold mx in Ld. lia. }
    rewrite H2. cbn [mbind option_bind]. change (1 =? 0) with false. cbv iota. cbn [elems_loop]. change (0 + 1 <? 1) with false. cbv iota. cbn [mbind option_bind]. eauto.
  Qed.

  Lemma follow_tot depth : (mx < depth)%nat -> forall fuel st K D i, FI W a0 (root_fd root) st K D i -> Good W root a0 st -> i <> 0%nat -> (nx - i < fuel)%nat ->
    exists st', follow_loop W fuel depth st i = Some (true, st') /\ Good W root a0 st'.
  Proof.
    intros Ld. induction fuel as [|fuel IH]; intros st K D i F G Iz Lf; [lia|]. cbn [follow_loop]. destruct (Nat.ltb_spec i (length (s_info st))) as [Li|Li]; [|eauto].
    pose proof (nodes_bound W HW root a0 HR HT rank Hrank P HP st K D i F) as Nb. fold nx in Nb.
    destruct (lookup_lt_is_Some_2 _ _ Li) as [x Ex]. rewrite (rd_lu _ _ _ Ex). cbn [mbind option_bind]. destruct (followed x) eqn:Fx.
    - destruct (follow_def _ _ _ _ _ depth F G Iz Ex Fx Ld) as (st1 & H1 & G1). rewrite H1. cbn [mbind option_bind]. change (1 =? 0) with false. cbv iota.
      destruct (follow_step W HW _ _ _ _ _ _ _ _ _ _ F Iz Ex Fx H1) as [?|(K' & D' & F')]; [done|]. eapply IH; [exact F'|done|done|lia].
    - eapply (IH st K D (S i)); [|done|done|lia]. destruct F as [F1 F2 F3 F4 F5]. constructor; try done.
      + intros j y Jz Ey Ty Lj. destruct (Nat.eq_dec j i) as [->|Nj]; [|apply F4; done || lia]. rewrite Ex in Ey. injection Ey as <-. rewrite Fx. split; [|done].
        intros Hd. by destruct (F5 i x Ex Ty (Nat.le_refl _)).
      + intros j y Ey Ty Lj. apply (F5 j y); done || lia.
  Qed.

  Theorem ends : a0 <> 0 -> forall depth, (S mx < depth)%nat -> exists fuel, forall fuel', (fuel <= fuel')%nat ->
    exists st, mr_save W fuel' depth a0 root = Some (Some st).
  Proof.
    intros Az depth Ld. destruct depth as [|d]; [lia|].
    destruct (root_tot W HW root a0 HT (meas W root rank)) with (d := d) as (st & Hs & G); try done.
    - by apply h_field.
    - by apply h_elem.
    - by apply h_member.
    - by apply h_string.
    - by apply h_known.
    - by apply h_struct.
    - by apply h_cell.
    - by apply h_ref.
    - pose proof (meas_le W root rank Hrank _ (vis_fam W HW root a0 HR HT _ _ _ (vi_root W root a0))). unfold mx in Ld. lia.
    - destruct (root_ok W HW _ _ _ _ _ HR Hs) as [?|[_ (K & D & I & X & Hk)]]; [done|].
      assert (FI W a0 (root_fd root) st K D 1) as F by (by apply start_ok).
      destruct (follow_tot (S d) ltac:(lia) (S nx) st K D 1%nat F G ltac:(done) ltac:(lia)) as (s0 & Hl & G0).
      destruct (follow_ok W HW _ _ _ _ _ _ _ _ _ F ltac:(done) Hl) as (K0 & D0 & F0).
      destruct (post_def s0 K0 D0 F0 G0) as (fu & Hpp). exists (Nat.max (S nx) fu). intros fuel' Lf. destruct (Hpp fuel' ltac:(lia)) as (s2 & H2). exists s2.
      unfold mr_save. rewrite (proj2 (Z.eqb_neq _ _) Az), Hs. cbn [mbind option_bind]. change (1 =? 0) with false. cbv iota.
      rewrite (follow_more _ _ _ fuel' _ _ _ Hl ltac:(lia)). cbn [mbind option_bind]. rewrite H2. done.
  Qed.
End Ends.
