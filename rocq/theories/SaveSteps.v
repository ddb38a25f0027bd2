(** The elementary steps of mr_save keep its invariant (src/mr_save.c:610-828, 1012-1065). *)
From stdpp Require Import sets.
From Verif Require Import Base Ptrs ChildrenProof Save SaveForest SaveSpec SaveInv.
Local Open Scope Z_scope.

Lemma reach_app l x h i : reach l h i -> reach (l ++ [x]) h i.
Proof.
  induction 1 as [i H|h y i H E _ IH]; [by constructor|]. eapply reach_next; [done| |done].
  rewrite lookup_app_l; [done|]. by eapply lookup_lt_Some.
Qed.
Lemma reach_map l l' h i : (forall j x, l !! j = Some x -> exists x', l' !! j = Some x' /\ i_chain x' = i_chain x) -> reach l h i -> reach l' h i.
Proof.
  intros H. induction 1 as [i Hi|h y i Hh E _ IH]; [by constructor|]. destruct (H _ _ E) as (y' & E' & C).
  eapply reach_next; [done|done|]. by rewrite C.
Qed.
Lemma w32_small z : 0 <= z < 2 ^ 32 -> w32 z = z.
Proof. intros. unfold w32. by apply Z.mod_small. Qed.

Lemma w32_moved s c e : 0 <= s -> 1 <= c -> s * c < 2 ^ 32 -> w32 (w32 (s * c) - 0 * e) = s * c.
Proof. intros. rewrite Z.mul_0_l, Z.sub_0_r. rewrite (w32_small (s * c)) by nia. apply w32_small. nia. Qed.
Lemma room u s c : u <= s -> 0 <= s -> 1 <= c -> u <= s * c.
Proof. nia. Qed.

(** A node becomes a reference. *)
Lemma setref_ok ns K par npar r nr : forest_ok ns K -> par <> 0%nat -> ns !! par = Some npar -> K par = [] -> ns !! r = Some nr ->
  let ns1 := <[par := mark_ref (set_first_child npar r)]> ns in
  exists nr1, ns1 !! r = Some nr1 /\ forest_ok (<[r := mark_referenced nr1]> ns1) K /\
    forall i n, ns !! i = Some n -> exists n', <[r := mark_referenced nr1]> ns1 !! i = Some n' /\
      parent n' = parent n /\ is_ref n' = (if Nat.eqb i par then true else is_ref n) /\
      referenced n' = (if Nat.eqb i r then true else referenced n) /\ pub_idx n' = pub_idx n /\
      structured n' = structured n /\ rm_type n' = rm_type n /\
      first_child n' = (if Nat.eqb i par then r else first_child n) /\ next n' = next n.
Proof.
  intros R P Ep Kp Er ns1. pose proof (lookup_lt_Some _ _ _ Ep) as Lp. pose proof (lookup_lt_Some _ _ _ Er) as Lr.
  assert (forall i n, ns !! i = Some n -> exists n', ns1 !! i = Some n' /\
      parent n' = parent n /\ is_ref n' = (if Nat.eqb i par then true else is_ref n) /\
      referenced n' = referenced n /\ pub_idx n' = pub_idx n /\
      structured n' = structured n /\ rm_type n' = rm_type n /\
      first_child n' = (if Nat.eqb i par then r else first_child n) /\ next n' = next n) as F1.
  { intros i n E. unfold ns1. destruct (Nat.eqb_spec i par) as [->|Ni].
    - rewrite list_lookup_insert by done. rewrite Ep in E. injection E as <-. eexists. split; [done|]. done.
    - rewrite list_lookup_insert_ne by done. eauto 20. }
  destruct (F1 _ _ Er) as (nr1 & Er1 & _). exists nr1. split; [done|].
  set (ns2 := <[r := mark_referenced nr1]> ns1).
  assert (forall i n, ns !! i = Some n -> exists n', ns2 !! i = Some n' /\
      parent n' = parent n /\ is_ref n' = (if Nat.eqb i par then true else is_ref n) /\
      referenced n' = (if Nat.eqb i r then true else referenced n) /\ pub_idx n' = pub_idx n /\
      structured n' = structured n /\ rm_type n' = rm_type n /\
      first_child n' = (if Nat.eqb i par then r else first_child n) /\ next n' = next n) as F2.
  { intros i n E. destruct (F1 i n E) as (n1 & E1 & H). unfold ns2. destruct (Nat.eqb_spec i r) as [->|Ni].
    - rewrite list_lookup_insert by (by eapply lookup_lt_Some). rewrite Er1 in E1. injection E1 as <-. eexists. split; [done|]. cbn.
      destruct H as (? & ? & _ & ? & ? & ? & ? & ?). done.
    - rewrite list_lookup_insert_ne by done. eauto 20. }
  split; [|done].
  assert (length ns2 = length ns) as L2 by (unfold ns2, ns1; by rewrite !insert_length).
  assert (forall i n', ns2 !! i = Some n' -> exists n, ns !! i = Some n) as Back.
  { intros i n' E. apply lookup_lt_is_Some_2. rewrite <- L2. by eapply lookup_lt_Some. }
  assert (forall i, parf ns2 i = parf ns i) as Pn.
  { intros i. destruct (Nat.lt_ge_cases i (length ns)) as [L|L].
    - destruct (lookup_lt_is_Some_2 ns i L) as [m Em]. destruct (F2 i m Em) as (m' & Em' & Pm & _). by rewrite (parf_lu _ _ _ Em), (parf_lu _ _ _ Em').
    - unfold parf. rewrite !lookup_ge_None_2; [done|lia|lia]. }
  constructor.
  - rewrite L2. apply R.
  - destruct (fo_zero _ _ R) as (n & E0 & Z1 & Z2 & Z3 & Z4). destruct (F2 0%nat n E0) as (n' & E' & A1 & A2 & _ & _ & _ & _ & A3 & A4).
    destruct (Nat.eqb_spec 0 par); [congruence|]. exists n'. rewrite A1, A2, A3, A4. done.
  - intros i n' E'. rewrite <- (parf_lu _ _ _ E'), Pn, L2. apply (parf_lt _ _ R).
  - intros i n' E'. destruct (Back _ _ E') as [n E]. destruct (F2 _ _ E) as (n2 & E2 & _ & A2 & _ & _ & _ & _ & A3 & _).
    rewrite E2 in E'. injection E' as ->. rewrite A2, A3. destruct (Nat.eqb_spec i par) as [->|Ni]; [done|].
    pose proof (fo_kids _ _ R _ _ E) as L. destruct (is_ref n); [done|]. eapply linked_frame; [|exact L].
    intros x nx _ Ex. destruct (F2 _ _ Ex) as (nx' & Ex' & _ & _ & _ & _ & _ & _ & _ & A4). eauto.
  - intros p c. rewrite Pn, L2. apply (fo_in _ _ R).
  - apply R.
  - intros i I L. rewrite L2 in L. destruct (fo_lev _ _ R i I L) as (k & Hk). exists k. eapply lev_agree; [exact Hk|]. intros; apply Pn.
  - intros i n' I E' Pz. destruct (Back _ _ E') as [n E]. destruct (F2 _ _ E) as (n2 & E2 & A1 & _ & _ & _ & _ & _ & _ & A4).
    rewrite E2 in E'. injection E' as ->. rewrite A1 in Pz. rewrite A4. by apply (fo_root _ _ R _ _ I E).
Qed.

(** Arithmetic without the boolean hypotheses. *)
Ltac nlia := repeat match goal with H : @eq bool _ _ |- _ => clear H | H : (_ < _)%Z |- _ => clear H | H : (_ <= _)%Z |- _ => clear H end; lia.

Section Steps.
  Context (W : world) (HW : wf_world W).

  Lemma push_inv st K D O par npar px f data count : Inv W st K D O -> par <> 0%nat -> lns st !! par = Some npar -> is_ref npar = false ->
    s_info st !! par = Some px -> (forall o, o ∈ O -> anc (parf (lns st)) par o) -> (par ∈ O \/ i_type px = T_POINTER) ->
    hitc (lns st) K (cache (s_ptrs st)) par -> fd_ok W f -> np_ok W D par f -> 1 <= count -> f_size f * count < 2 ^ 32 ->
    (ptr_or_str (i_type px) = true -> K par = [] /\ w_ptr W (i_data px) = Some data /\ data <> 0 /\
       f_type f = (if i_type px =? T_STRING then T_CHAR_ARRAY else f_aux (D par)) /\ (i_type px = T_POINTER -> f = content W (D par))) ->
    (ptr_or_str (i_type px) = true -> forall i y, i <> 0%nat -> s_info st !! i = Some y -> i_data y = data -> i_type y = f_type f ->
       matchable (i_type y) = true -> (compound (i_type y) = true -> f_tdp (D i) = f_tdp f) -> False) ->
    let idx := length (s_info st) in
    exists p, add_child (Ptrs (lns st ++ [new_link f par]) (cache (s_ptrs st))) par idx = Some p /\ cache p = idx /\
      let st1 := SSt p (s_info st ++ [set_chain (new_info data f count) (s_heads st (key data))])
                   (fun k => if k =? key data then idx else s_heads st k) in
      let K1 := fset K par (K par ++ [idx]) in let D1 := dset D idx f in
      Inv W st1 K1 D1 (idx :: O) /\ Ext par st K D st1 K1 D1 /\ parf (lns st1) idx = par /\ K1 idx = [] /\
        exists nd, lns st1 !! idx = Some nd /\ is_ref nd = false.
  Proof.
    intros I P Ep Rp Epx Oa Po Hit Fo Np Cn Sz Ct Un idx.
    pose proof (v_len _ _ _ _ _ I) as Ln. pose proof (v_for _ _ _ _ _ I) as R.
    destruct (push_ok (lns st) K (cache (s_ptrs st)) (new_link f par) par npar) as (ns' & E & L' & R' & Fr); try done.
    unfold idx. rewrite Ln. exists (Ptrs ns' (length (lns st))). split; [done|]. split; [done|]. cbv zeta.
    set (st1 := SSt _ _ _). set (K1 := fset _ _ _). set (D1 := dset _ _ _).
    set (x0 := set_chain (new_info data f count) (s_heads st (key data))) in *.
    assert (forall i, (i < length (lns st))%nat -> s_info st1 !! i = s_info st !! i) as Io.
    { intros i Li. unfold st1. cbn. rewrite lookup_app_l; [done|nlia]. }
    assert (s_info st1 !! length (lns st) = Some x0) as In.
    { unfold st1. cbn. rewrite lookup_app_r by nlia. by rewrite Ln, Nat.sub_diag. }
    assert (length (s_info st1) = S (length (lns st))) as L1 by (unfold st1; cbn; rewrite app_length; cbn; lia).
    assert (forall i n, lns st !! i = Some n -> exists n', lns st1 !! i = Some n' /\ parent n' = parent n /\ is_ref n' = is_ref n /\
       referenced n' = referenced n /\ (i <> par -> first_child n' = first_child n)) as Fo1.
    { intros i n En. pose proof (lookup_lt_Some _ _ _ En) as Li. destruct (Fr i n) as (n' & En' & A1 & A2 & A3 & A4 & A5 & A6 & A7 & _).
      { by rewrite lookup_app_l. } exists n'. assert (i <> length (lns st)) as Ni by (clear -Li; lia). apply Nat.eqb_neq in Ni. rewrite Ni in A1. done. }
    assert (forall i, (i < length (lns st))%nat -> parf (lns st1) i = parf (lns st) i) as Pf.
    { intros i Li. destruct (lookup_lt_is_Some_2 (lns st) i Li) as [n En]. destruct (Fo1 _ _ En) as (n' & En' & Pn & _).
      by rewrite (parf_lu _ _ _ En), (parf_lu _ _ _ En'). }
    assert (parf (lns st1) (length (lns st)) = par) as Pi.
    { destruct (Fr (length (lns st)) (new_link f par)) as (n' & En' & A1 & _); [rewrite lookup_app_r, Nat.sub_diag by nlia; done|].
      unfold st1, lns at 1. cbn. rewrite (parf_lu _ _ _ En'), A1. by rewrite Nat.eqb_refl. }
    pose proof (lookup_lt_Some _ _ _ Ep) as Lp.
    assert (K1 (length (lns st)) = []) as Ki. { unfold K1. rewrite fset_other by nlia. by apply (forest_K_out _ _ R). }
    assert (forall i, i <> length (lns st) -> D1 i = D i) as Do by (intros i Ni; unfold D1; by apply dset_other).
    assert (D1 (length (lns st)) = f) as Dn by (unfold D1; apply dset_same).
    assert (forall i x, s_info st1 !! i = Some x -> (i < length (lns st))%nat /\ s_info st !! i = Some x \/ i = length (lns st) /\ x = x0) as Cases.
    { intros i x Ex. destruct (Nat.lt_ge_cases i (length (lns st))) as [Li|Li]; [left; rewrite Io in Ex; done|right].
      apply lookup_lt_Some in Ex as Lx. assert (i = length (lns st)) as -> by nlia. split; [done|]. congruence. }
    assert (Ext par st K D st1 K1 D1) as Ex.
    { constructor.
      - lia.
      - intros i x E1. exists x. split; [|done]. rewrite Io; [done|]. rewrite <- Ln. by eapply lookup_lt_Some.
      - intros i x I0 E1. left. apply lookup_lt_Some in E1. rewrite Pf by nlia. rewrite Do by nlia. done.
      - intros i x I0 E1 Nip Ps. unfold K1. by rewrite fset_other.
      - intros i I0 Li [H|(n & En & Rn)].
        + left. unfold K1. destruct (Nat.eq_dec i par) as [->|Nip]; [rewrite fset_same|by rewrite fset_other]. destruct (K par); done.
        + right. destruct (Fo1 _ _ En) as (n' & En' & _ & Rn' & _). exists n'. split; [done|]. congruence.
      - intros i I0 Ha. apply (anc_in _ _ R) in Ha as [_ Li]; [|done..]. rewrite Io, Pf, Do by nlia. do 3 (split; [done|]). intros Nip. unfold K1. by rewrite fset_other.
      - intros i x I0 E1 T1 Nip [Hd|(n & En & Rn)].
        + left. unfold K1 in Hd. by rewrite fset_other in Hd.
        + right. apply lookup_lt_Some in E1 as Li. rewrite Ln in Li. destruct (lookup_lt_is_Some_2 (lns st) i Li) as [n0 En0].
          destruct (Fo1 _ _ En0) as (n' & En' & _ & Rn' & _). rewrite En in En'. injection En' as <-. exists n0. split; [done|]. congruence.
      - intros i x Li E1 T1. destruct (Cases _ _ E1) as [[Li' _]|[-> ->]]; [nlia|]. intros [Hd|(n & En & Rn)]; [done|].
        destruct (Fr (length (lns st)) (new_link f par)) as (n' & En' & _ & A2 & _); [rewrite lookup_app_r, Nat.sub_diag by nlia; done|].
        change (ns' !! length (lns st) = Some n) in En. rewrite En in En'. injection En' as <-. cbn in A2. congruence. }
    assert (exists nd, lns st1 !! length (lns st) = Some nd /\ is_ref nd = false) as Nr.
    { destruct (Fr (length (lns st)) (new_link f par)) as (n' & En' & _ & A2 & _); [rewrite lookup_app_r, Nat.sub_diag by nlia; done|]. by exists n'. }
    split; [|done]. constructor.
    - rewrite L1. symmetry. exact L'.
    - exact R'.
    - intros o Ho. apply elem_of_cons in Ho. unfold lns, st1. cbn. rewrite L'. destruct Ho as [->|Ho]; [|apply I in Ho; lia].
      pose proof (fo_len _ _ R). lia.
    - intros i x I0 Exi. destruct (Cases _ _ Exi) as [[Li Ei]|[-> ->]].
      + pose proof (v_id _ _ _ _ _ I i x I0 Ei) as H. unfold id_ok in *. by rewrite Do by nlia.
      + unfold id_ok. rewrite Dn. unfold x0. cbn. do 5 (split; [done|]). intros Hs. destruct Fo as [Fs [_ Fo]].
        destruct (Z.eqb_spec (f_type f) T_ARRAY) as [Ta|]; [by rewrite Ta in Hs|]. destruct Fo as (_ & Fu & _).
        destruct (Fu Hs) as (u & Hu & Lu). exists u. split; [done|]. rewrite w32_small by nia. nia.
    - intros i x I0 Hi Exi. destruct (Cases _ _ Exi) as [[Li Ei]|[-> ->]].
      + apply elem_of_cons in Hi as [->|Hi]; [nlia|]. rewrite Pf, Do by nlia. destruct (v_fdp_o _ _ _ _ _ I i x I0 Hi Ei) as [H1 H2]. split; [done|].
        unfold np_ok in *. rewrite Do; [done|]. pose proof (parf_lt _ _ R i). lia.
      + rewrite Dn, Pi. split; [done|]. unfold np_ok in *. rewrite Do by nlia. done.
    - intros i x I0 Hi Exi. apply not_elem_of_cons in Hi as [Ni Hi]. destruct (Cases _ _ Exi) as [[Li Ei]|[-> ->]]; [|done].
      rewrite Do by nlia. by apply (v_fdp_c _ _ _ _ _ I).
    - intros i x I0 Hi Exi. apply not_elem_of_cons in Hi as [Ni Hi]. destruct (Cases _ _ Exi) as [[Li Ei]|[-> ->]]; [|done].
      eapply node_ok_ext; [exact I|exact Ex|done|exact Ei|done| |by apply (v_node _ _ _ _ _ I)].
      intros ->. destruct Po as [?|T]; [done|]. rewrite Epx in Ei. injection Ei as <-. by rewrite T.
    - intros i x n Exi Eni Rn. destruct (Cases _ _ Exi) as [[Li Ei]|[-> ->]].
      + destruct (lookup_lt_is_Some_2 (lns st) i Li) as [n0 En0]. destruct (Fo1 _ _ En0) as (n' & En' & _ & Rn' & _ & Fc). rewrite Eni in En'. injection En' as <-.
        assert (i <> par) as Nip by (intros ->; congruence). rewrite Fc by done.
        destruct (v_ref _ _ _ _ _ I i x n0 Ei En0) as (Q1 & Q2 & xr & nr & Q3 & Q4 & Q5 & Q6 & Q7); [congruence|].
        pose proof (lookup_lt_Some _ _ _ Q4) as Lr. split; [done|]. split; [done|]. destruct (Fo1 _ _ Q4) as (nr' & Er' & _ & _ & Rr & _).
        exists xr, nr'. rewrite Io by done. unfold target_ok in *. rewrite !Do by nlia. do 2 (split; [done|]). split; [congruence|]. done.
      + destruct (Fr (length (lns st)) (new_link f par)) as (n' & En' & _ & A2 & _); [rewrite lookup_app_r, Nat.sub_diag by nlia; done|].
        change (ns' !! length (lns st) = Some n) in Eni. rewrite Eni in En'. injection En' as <-. cbn in A2. congruence.
    - intros i x I0 Exi Ps. destruct (Cases _ _ Exi) as [[Li Ei]|[-> ->]]; [|by left].
      destruct (Nat.eq_dec i par) as [->|Nip].
      + right. rewrite Epx in Ei. injection Ei as <-. destruct (Ct Ps) as (C1 & C2 & C3 & C4 & C5). exists (length (lns st)), x0.
        unfold K1. rewrite fset_same, C1. split; [done|]. split; [done|]. unfold content_ok, target_ok. rewrite Dn, Do by nlia. cbn. done.
      + unfold K1. rewrite fset_other by done. destruct (v_one _ _ _ _ _ I i x I0 Ei Ps) as [?|(c & xc & Q1 & Q2 & Q3)]; [by left|right].
        pose proof (lookup_lt_Some _ _ _ Q2) as Lc. rewrite Ln in Lc. exists c, xc. split; [done|]. rewrite Io by done. split; [done|].
        unfold content_ok, target_ok in *. rewrite !Do by nlia. done.
    - intros i x I0 Exi. destruct (Cases _ _ Exi) as [[Li Ei]|[-> ->]].
      + pose proof (v_chain _ _ _ _ _ I i x I0 Ei) as H. unfold st1. cbn. destruct (Z.eqb_spec (key (i_data x)) (key data)) as [Ek|Ek].
        * eapply reach_next; [|by unfold st1 in In; cbn in In|]; [nlia|]. cbn. rewrite <- Ek. by apply reach_app.
        * by apply reach_app.
      + unfold st1. cbn. rewrite Z.eqb_refl. rewrite <- Ln. constructor. rewrite Ln. lia.
    - intros p q c d xp xq xc xd Ncd Hc Hd Exp Exq Exc Exd Tp Tq.
      assert (forall p c, c ∈ K1 p -> c = length (lns st) /\ p = par \/ c <> length (lns st) /\ c ∈ K p) as Kc.
      { intros p' c'. unfold K1. destruct (Nat.eq_dec p' par) as [->|Npp].
        - rewrite fset_same, elem_of_app, elem_of_list_singleton. intros [H|H]; [|by left]. right. split; [|done].
          apply (kid_lt _ _ R) in H. nlia.
        - rewrite fset_other by done. intros H. right. split; [|done]. apply (kid_lt _ _ R) in H. nlia. }
      destruct (Cases _ _ Exp) as [[Lip Ep']|[-> ->]]; [|rewrite Ki in Hc; by apply elem_of_nil in Hc].
      destruct (Cases _ _ Exq) as [[Liq Eq']|[-> ->]]; [|rewrite Ki in Hd; by apply elem_of_nil in Hd].
      destruct (Cases _ _ Exc) as [[Lc Ec']|[-> ->]]; destruct (Cases _ _ Exd) as [[Ld Ed']|[-> ->]]; [| | |done].
      + destruct (Kc _ _ Hc) as [[? _]|[_ Hc']]; [nlia|]. destruct (Kc _ _ Hd) as [[? _]|[_ Hd']]; [nlia|].
        intros Hal. eapply (v_uniq _ _ _ _ _ I p q c d); try done. unfold alike in *. by rewrite !Do in Hal by nlia.
      + destruct (Kc _ _ Hd) as [[_ ->]|[? _]]; [|nlia]. rewrite Epx in Eq'. injection Eq' as <-.
        destruct (Kc _ _ Hc) as [[? _]|[_ Hc']]; [nlia|]. apply (kid_lt _ _ R) in Hc' as (Hc0 & _).
        intros (A1 & A2 & A3 & A4). rewrite Dn, Do in A4 by nlia. cbn in A1, A2. by eapply (Un Tq c xc).
      + destruct (Kc _ _ Hc) as [[_ ->]|[? _]]; [|nlia]. rewrite Epx in Ep'. injection Ep' as <-.
        destruct (Kc _ _ Hd) as [[? _]|[_ Hd']]; [nlia|]. apply (kid_lt _ _ R) in Hd' as (Hd0 & _).
        intros (A1 & A2 & A3 & A4). rewrite Dn, Do in A4 by nlia. rewrite A2 in A3, A4. eapply (Un Tp d xd); try done. intros Hcm. by rewrite A4.
  Qed.

  Lemma upd_link_eq st i n f : lns st !! i = Some n ->
    upd_link st i f = Some (SSt (Ptrs (<[i := f n]> (lns st)) (cache (s_ptrs st))) (s_info st) (s_heads st)).
  Proof.
    intros E. unfold upd_link, upd. rewrite (rd_lu _ _ _ E). cbn [mbind option_bind]. rewrite wr_Some by (by eapply lookup_lt_Some). done.
  Qed.
  Lemma upd_info_eq st i x f : s_info st !! i = Some x ->
    upd_info st i f = Some (SSt (s_ptrs st) (<[i := f x]> (s_info st)) (s_heads st)).
  Proof.
    intros E. unfold upd_info. rewrite (rd_lu _ _ _ E). cbn [mbind option_bind]. rewrite wr_Some by (by eapply lookup_lt_Some). done.
  Qed.

  Lemma ref_inv st K D O par px r xr : Inv W st K D O -> par <> 0%nat -> s_info st !! par = Some px -> K par = [] ->
    ptr_or_str (i_type px) = true -> r <> 0%nat -> s_info st !! r = Some xr -> target_ok W D par px r xr ->
    (i_type px = T_POINTER -> matchable (i_type xr) = true /\ (compound (i_type xr) = true -> f_tdp (D r) = f_tdp (D par))) ->
    exists st', make_ref st par r = Some st' /\ Inv W st' K D O /\ Ext par st K D st' K D /\ s_info st' = s_info st /\
      cache (s_ptrs st') = cache (s_ptrs st) /\ (exists n, lns st' !! par = Some n /\ is_ref n = true) /\
      (forall i, parf (lns st') i = parf (lns st) i).
  Proof.
    intros I P Epx Kp Ps R0 Er Tg Tt. pose proof (v_len _ _ _ _ _ I) as Ln. pose proof (v_for _ _ _ _ _ I) as R.
    destruct (lookup_lt_is_Some_2 (lns st) par) as [npar Ep]; [rewrite <- Ln; by eapply lookup_lt_Some|].
    destruct (lookup_lt_is_Some_2 (lns st) r) as [nr Enr]; [rewrite <- Ln; by eapply lookup_lt_Some|].
    destruct (setref_ok _ _ _ _ _ _ R P Ep Kp Enr) as (nr1 & Enr1 & R' & Fr).
    unfold make_ref. rewrite (upd_link_eq _ _ _ _ Ep). cbn [mbind option_bind]. rewrite (upd_link_eq _ _ nr1) by done.
    eexists. split; [done|]. set (st' := SSt _ _ _). set (ns' := <[r := mark_referenced nr1]> _) in *.
    change (lns st') with ns'.
    assert (length ns' = length (lns st)) as L' by (unfold ns'; by rewrite !insert_length).
    assert (forall i, parf ns' i = parf (lns st) i) as Pf.
    { intros i. destruct (Nat.lt_ge_cases i (length (lns st))) as [L|L].
      - destruct (lookup_lt_is_Some_2 (lns st) i L) as [m Em]. destruct (Fr i m Em) as (m' & Em' & Pm & _). by rewrite (parf_lu _ _ _ Em), (parf_lu _ _ _ Em').
      - unfold parf. rewrite !lookup_ge_None_2; [done|nlia|nlia]. }
    assert (forall i n', ns' !! i = Some n' -> exists n, lns st !! i = Some n) as Back.
    { intros i n' E. apply lookup_lt_is_Some_2. rewrite <- L'. by eapply lookup_lt_Some. }
    assert (Ext par st K D st' K D) as Ex.
    { constructor.
      - done.
      - intros i x E. exists x. done.
      - intros i x _ _. left. done.
      - done.
      - intros i I0 Li [?|(n & En & Rn)]; [by left|right]. destruct (Fr _ _ En) as (n' & En' & _ & Rn' & _). exists n'. split; [done|].
        rewrite Rn', Rn. by destruct (Nat.eqb i par).
      - intros i I0 _. done.
      - intros i x I0 E1 T1 Nip [Hd|(n & En & Rn)]; [by left|right]. destruct (Back _ _ En) as [n0 En0].
        destruct (Fr _ _ En0) as (n' & En' & _ & Rn' & _). change (lns st') with ns' in En. rewrite En in En'. injection En' as <-. exists n0. split; [done|].
        destruct (Nat.eqb_spec i par); [done|]. congruence.
      - intros i x Li E1. cbn in E1. apply lookup_lt_Some in E1. nlia. }
    assert (exists n, ns' !! par = Some n /\ is_ref n = true /\ first_child n = r) as (np & Enp & Rnp & Fnp).
    { destruct (Fr _ _ Ep) as (n & En & _ & Rn & _ & _ & _ & _ & Fn & _). rewrite Nat.eqb_refl in Rn, Fn. exists n. done. }
    split; [|split; [done|split; [done|split; [done|split; [eauto|done]]]]].
    constructor.
    - cbn. rewrite L'. done.
    - exact R'.
    - intros o Ho. change (lns st') with ns'. rewrite L'. by apply I.
    - apply I.
    - intros i x I0 Hi E. change (lns st') with ns'. rewrite Pf. by apply (v_fdp_o _ _ _ _ _ I).
    - apply I.
    - intros i x I0 Hi E. eapply node_ok_ext; [exact I|exact Ex|done|exact E|done| |by apply (v_node _ _ _ _ _ I)].
      intros ->. cbn in E. congruence.
    - intros i x n' E En' Rn'. change (lns st') with ns' in En'. destruct (Back _ _ En') as [n En].
      destruct (Fr _ _ En) as (n2 & En2 & _ & A2 & _ & _ & _ & _ & A3 & _). rewrite En2 in En'. injection En' as ->.
      assert (forall j nj, lns st !! j = Some nj -> exists nj', ns' !! j = Some nj' /\ (referenced nj = true \/ j = r -> referenced nj' = true)) as Rf.
      { intros j nj Ej. destruct (Fr _ _ Ej) as (nj' & Ej' & _ & _ & B & _). exists nj'. split; [done|]. rewrite B. intros [-> | ->]; [by destruct (Nat.eqb j r)|by rewrite Nat.eqb_refl]. }
      rewrite A3. destruct (Nat.eqb_spec i par) as [->|Ni].
      + cbn in E. rewrite Epx in E. injection E as <-. split; [done|]. split; [done|]. destruct (Rf _ _ Enr) as (nr' & Enr' & Hr). exists xr, nr'.
        cbn. split; [done|]. split; [done|]. split; [by apply Hr; right|]. done.
      + rewrite A2 in Rn'. destruct (v_ref _ _ _ _ _ I i x n E En Rn') as (Q1 & Q2 & y & ny & Q3 & Q4 & Q5 & Q6).
        split; [done|]. split; [done|]. destruct (Rf _ _ Q4) as (ny' & Eny' & Hr). exists y, ny'. split; [done|]. split; [done|]. split; [by apply Hr; left|]. done.
    - apply I.
    - apply I.
    - apply I.
  Qed.

  (** ** Descriptors of complete nodes *)
  Lemma climb_ok st K D O st' : Inv W st K D O -> s_info st' = s_info st -> (forall i, parf (lns st') i = parf (lns st) i) ->
    forall fuel i r, i <> 0%nat -> (i < length (s_info st))%nat -> climb_persistent fuel st' i = Some r ->
    match r with Some h => f_np h = false /\ f_tdp h = f_tdp (D i) /\ f_base h = base_of W (f_tdp h) | None => exists k t, f_tdp (D i) = Some k /\ w_tds W !! k = Some t end.
  Proof.
    intros I Ei Pf. induction fuel as [|fuel IH]; intros i r I0 Li H; [done|]. cbn in H.
    destruct (Nat.eqb_spec i 0) as [|_]; [done|]. apply bind_Some in H as (n & En & H). apply bind_Some in H as (x & Ex & H).
    rewrite Ei in Ex. unfold rd in *. pose proof (Pf i) as Pi. rewrite (parf_lu _ _ _ En) in Pi.
    destruct (decide (i ∈ O)) as [Ho|Ho].
    - destruct (v_fdp_o _ _ _ _ _ I i x I0 Ho Ex) as [Ef Hn]. rewrite Ef in H. destruct (f_np (D i)) eqn:Nf; [|injection H as <-; split; [done|]; split; [done|]; by apply (v_id _ _ _ _ _ I i x I0 Ex)].
      destruct (Hn Nf) as [[Pz Hk]|[Pz Ht]].
      + rewrite Pi, Pz in H. destruct fuel as [|fuel]; [done|]. cbn in H. injection H as <-. done.
      + rewrite Pi in H. specialize (IH (parf (lns st) i) r Pz). rewrite Ht in IH. apply IH; [|done]. rewrite (v_len _ _ _ _ _ I). apply (parf_lt _ _ (v_for _ _ _ _ _ I)).
    - destruct (v_fdp_c _ _ _ _ _ I i x I0 Ho Ex) as (h & Ef & Nh & Th & Bh & _). rewrite Ef, Nh in H. injection H as <-. done.
  Qed.

  Lemma persistent_ok st K D O st' f par h : Inv W st K D O -> s_info st' = s_info st -> (forall i, parf (lns st') i = parf (lns st) i) ->
    (par < length (s_info st))%nat -> np_ok W D par f -> (f_np f = false -> f_base f = base_of W (f_tdp f)) -> persistent_fd W st' (Some f) par = Some h ->
    exists g, h = Some g /\ f_np g = false /\ f_tdp g = f_tdp f /\ f_base g = base_of W (f_tdp g) /\ (f_np f = false -> g = f).
  Proof.
    intros I Ei Pf Lp Hn Hb H. unfold persistent_fd in H. cbn [mbind option_bind] in H. destruct (f_np f) eqn:Nf; [|injection H as <-; exists f; auto 6].
    apply bind_Some in H as (r & Hr & H).
    assert (forall k t, f_tdp f = Some k -> w_tds W !! k = Some t -> ptr_fd W f = Some h -> exists g, h = Some g /\ f_np g = false /\ f_tdp g = f_tdp f /\ f_base g = base_of W (f_tdp g) /\ (true = false -> g = f)) as G.
    { intros k t Ek Et Hp. unfold ptr_fd, rd in Hp. rewrite Ek, Et in Hp. injection Hp as <-. destruct (HW k t Et) as (_ & _ & A & B). exists (t_ptr_fd t).
      rewrite B. unfold base_of. rewrite Et. done. }
    destruct (Hn Nf) as [[-> (k & t & Ek & Et)]|[Pz Ht]].
    - cbn in Hr. injection Hr as <-. by eapply G.
    - pose proof (climb_ok _ _ _ _ _ I Ei Pf _ _ _ Pz Lp Hr) as C. rewrite Ht in C. destruct r as [g|].
      + injection H as <-. exists g. destruct C as (? & ? & ?). done.
      + destruct C as (k & t & Ek & Et). by eapply G.
  Qed.


  (** ** Changes of one node *)
  Lemma node_ok_eq st st' K D i x x' : lns st' = lns st ->
    (forall j y, s_info st !! j = Some y -> exists y', s_info st' !! j = Some y' /\ i_data y' = i_data y /\ i_type y' = i_type y) ->
    length (s_info st') = length (s_info st) ->
    i_data x' = i_data x -> i_type x' = i_type x -> i_null x' = i_null x -> i_opaque x' = i_opaque x -> (i_type x = T_POINTER -> i_size x' = i_size x) ->
    node_ok W st K D i x -> node_ok W st' K D i x'.
  Proof.
    intros El Ei Ln S1 S2 S4 S5 S6 [Hnl H]. split; [unfold null_ok in *; by rewrite S2, S4|]. unfold node_body in *. rewrite S1, S2, S4, S5.
    assert (forall ad f c, kid_at st D ad f c -> kid_at st' D ad f c) as Kd.
    { intros ad f c (Dc & y & Ey & Ay). destruct (Ei _ _ Ey) as (y' & Ey' & Ay' & _). split; [done|]. exists y'. split; [done|congruence]. }
    destruct (Z.eqb_spec (i_type x) T_STRUCT) as [T|T1].
    { destruct H as (k & t & H1 & H2 & H3). exists k, t. do 2 (split; [done|]). eapply Forall2_in; [exact H3|]. cbn. auto. }
    destruct (Z.eqb_spec (i_type x) T_ARRAY) as [T|T2].
    { destruct H as (cnt & H1 & H2). exists cnt. split.
      - assert (encl st' D i = encl st D i) as ->; [|done]. unfold encl. rewrite El. destruct (Nat.eqb _ _); [done|].
        destruct (s_info st !! _) as [y|] eqn:Ey.
        + destruct (Ei _ _ Ey) as (y' & -> & -> & ->). done.
        + rewrite lookup_ge_None_2; [done|]. rewrite Ln. by apply lookup_ge_None.
      - eapply Forall2_in; [exact H2|]. cbn. auto. }
    destruct (union_type (i_type x)); [case_match; [|done]; destruct H as (c & ? & ?); eauto|].
    destruct (Z.eqb_spec (i_type x) T_POINTER) as [T|T4]; [by rewrite S6|].
    destruct (Z.eqb_spec (i_type x) T_STRING) as [T|T5]; [|done].
    unfold done_at in *. by rewrite El.
  Qed.

  Definition frame_info (x x' : info) : Prop :=
    i_data x' = i_data x /\ i_type x' = i_type x /\ i_unnamed x' = i_unnamed x /\ (i_type x <> T_ENUM -> i_aux x' = i_aux x) /\
    i_cref x' = i_cref x /\ i_chain x' = i_chain x /\ (sized (i_type x) = true -> i_size x' = i_size x).

  (** The fields of a node being saved; [O] loses the node if it is complete. *)
  Lemma upd_inv st K D O O' idx x x' : Inv W st K D O -> s_info st !! idx = Some x -> idx <> 0%nat -> frame_info x x' -> idx ∈ O ->
    (forall i, i ∈ O' -> i ∈ O) -> (forall i, i ∈ O -> i <> idx -> i ∈ O') ->
    (idx ∈ O' -> i_fdp x' = i_fdp x) ->
    (idx ∉ O' -> (exists h, i_fdp x' = Some h /\ f_np h = false /\ f_tdp h = f_tdp (D idx) /\ f_base h = base_of W (f_tdp h) /\ (f_np (D idx) = false -> h = D idx)) /\ node_ok W st K D idx x') ->
    Inv W (SSt (s_ptrs st) (<[idx := x']> (s_info st)) (s_heads st)) K D O'.
  Proof.
    intros I Ex I0 Fi Ho Oi Oo Hop Hcl. pose proof (lookup_lt_Some _ _ _ Ex) as Li. set (st' := SSt _ _ _).
    assert (forall i, i <> idx -> s_info st' !! i = s_info st !! i) as Io by (intros i Ni; cbn; by apply list_lookup_insert_ne).
    assert (s_info st' !! idx = Some x') as In by (cbn; by apply list_lookup_insert).
    assert (length (s_info st') = length (s_info st)) as Ln by (cbn; by rewrite insert_length).
    assert (forall i y, s_info st !! i = Some y -> exists y', s_info st' !! i = Some y' /\ frame_info y y') as Fw.
    { intros i y Ey. destruct (Nat.eq_dec i idx) as [->|Ni]; [rewrite Ex in Ey; injection Ey as <-; eauto|]. rewrite Io by done. exists y. done. }
    assert (forall i y', s_info st' !! i = Some y' -> exists y, s_info st !! i = Some y /\ frame_info y y' /\ (i <> idx -> y' = y) /\ (i = idx -> y = x /\ y' = x')) as Bw.
    { intros i y' Ey. destruct (Nat.eq_dec i idx) as [->|Ni]; [rewrite In in Ey; injection Ey as <-; exists x; done|]. rewrite Io in Ey by done. exists y'. done. }
    assert (forall i y, i <> idx -> node_ok W st K D i y -> node_ok W st' K D i y) as Nk.
    { intros i y Ni. eapply (node_ok_eq st) with (x := y); try done. intros j z Ez. destruct (Fw _ _ Ez) as (z' & Ez' & A & B & _). eauto. }
    constructor.
    - cbn. rewrite insert_length. apply I.
    - apply I.
    - intros o Hoo. apply (v_open _ _ _ _ _ I). auto.
    - intros i y' Iz Ey'. destruct (Bw _ _ Ey') as (y & Ey & (A1 & A2 & A3 & A4 & A5 & A6 & A7) & _).
      destruct (v_id _ _ _ _ _ I i y Iz Ey) as (B1 & B2 & B3 & B4 & B5 & B6).
      unfold id_ok. rewrite A2, A3, A5. do 2 (split; [done|]). split; [intros Te; rewrite A4; auto|]. do 2 (split; [done|]).
      intros Hs. rewrite A7 by done. by apply B6.
    - intros i y' Iz Hi Ey'. destruct (Bw _ _ Ey') as (y & Ey & _ & Ne & Eq). change (lns st') with (lns st).
      destruct (v_fdp_o _ _ _ _ _ I i y Iz (Oi _ Hi) Ey) as [B1 B2]. split; [|done].
      destruct (Nat.eq_dec i idx) as [->|Ni]; [|by rewrite Ne]. destruct Eq as [-> ->]; [done|]. by rewrite Hop.
    - intros i y' Iz Hi Ey'. destruct (Bw _ _ Ey') as (y & Ey & _ & Ne & Eq).
      destruct (Nat.eq_dec i idx) as [->|Ni]; [destruct Eq as [-> ->]; [done|]; by apply Hcl|]. rewrite Ne by done.
      apply (v_fdp_c _ _ _ _ _ I); [done| |done]. intros Hc. apply Hi. by apply Oo.
    - intros i y' Iz Hi Ey'. destruct (Bw _ _ Ey') as (y & Ey & _ & Ne & Eq).
      destruct (Nat.eq_dec i idx) as [->|Ni].
      + destruct Eq as [-> ->]; [done|]. destruct (Hcl Hi) as [_ Hn]. eapply (node_ok_eq st) with (x := x'); try done.
        intros j z Ez. destruct (Fw _ _ Ez) as (z' & Ez' & A & B & _). eauto.
      + rewrite Ne by done. apply Nk; [done|]. apply (v_node _ _ _ _ _ I); [done| |done]. intros Hc. apply Hi. by apply Oo.
    - intros i y' n Ey' En Rn. destruct (Bw _ _ Ey') as (y & Ey & (A1 & A2 & _) & _).
      destruct (v_ref _ _ _ _ _ I i y n Ey En Rn) as (Q1 & Q2 & z & nz & Q3 & Q4 & Q5 & Q6 & Q7).
      destruct (Fw _ _ Q3) as (z' & Ez' & C1 & C2 & _). split; [by rewrite A2|]. split; [done|]. exists z', nz. split; [done|]. split; [done|]. split; [done|].
      unfold target_ok in *. rewrite A1, A2, C1, C2. done.
    - intros i y' Iz Ey' Ps. destruct (Bw _ _ Ey') as (y & Ey & (A1 & A2 & _) & _). rewrite A2 in Ps.
      destruct (v_one _ _ _ _ _ I i y Iz Ey Ps) as [?|(c & xc & Q1 & Q2 & Q3)]; [by left|right].
      destruct (Fw _ _ Q2) as (z' & Ez' & C1 & C2 & _). exists c, z'. do 2 (split; [done|]). unfold content_ok, target_ok in *. rewrite A1, A2, C1, C2. done.
    - intros i y' Iz Ey'. destruct (Bw _ _ Ey') as (y & Ey & (A1 & _) & _). rewrite A1. eapply reach_map; [|by apply (v_chain _ _ _ _ _ I)].
      intros j z Ez. destruct (Fw _ _ Ez) as (z' & Ez' & _ & _ & _ & _ & _ & C & _). eauto.
    - intros p q c d xp xq xc xd Ncd Hc Hd Exp Exq Exc Exd Tp Tq.
      destruct (Bw _ _ Exp) as (yp & Eyp & (_ & P2 & _) & _). destruct (Bw _ _ Exq) as (yq & Eyq & (_ & Q2 & _) & _).
      destruct (Bw _ _ Exc) as (yc & Eyc & (C1 & C2 & _) & _). destruct (Bw _ _ Exd) as (yd & Eyd & (D1 & D2 & _) & _).
      intros Hal. eapply (v_uniq _ _ _ _ _ I p q c d); try done; [congruence|congruence|]. unfold alike in *. by rewrite C1, C2, D1, D2 in Hal.
  Qed.

  (** The node is complete. *)
  Lemma close_inv st K D O idx x nd h : Inv W st K D (idx :: O) -> idx ∉ O -> s_info st !! idx = Some x -> lns st !! idx = Some nd -> idx <> 0%nat ->
    persistent_fd W st (i_fdp x) (parent nd) = Some h -> node_ok W st K D idx x ->
    Inv W (SSt (s_ptrs st) (<[idx := set_fdp x h]> (s_info st)) (s_heads st)) K D O.
  Proof.
    intros I No Ex En I0 Hp Hn. pose proof (lookup_lt_Some _ _ _ Ex) as Li.
    destruct (v_fdp_o _ _ _ _ _ I idx x I0) as [Ef Np]; [left|done|]. rewrite Ef, <- (parf_lu _ _ _ En) in Hp.
    destruct (persistent_ok _ _ _ _ _ _ _ _ I eq_refl (fun _ => eq_refl) ltac:(rewrite (v_len _ _ _ _ _ I); apply (parf_lt _ _ (v_for _ _ _ _ _ I))) Np ltac:(apply (v_id _ _ _ _ _ I idx x I0 Ex)) Hp) as (g & -> & Ng & Tg & Bg & Eg).
    eapply upd_inv; [exact I|done|done|done|left|by right| |done|].
    - intros i [->|Hi]%elem_of_cons; done.
    - intros _. split; [cbn; eauto 7|]. eapply (node_ok_eq st) with (x := x); try done. eauto.
  Qed.

  (** ** Moved nodes *)
  Lemma same_typed_alike st K D O i x f data count : Inv W st K D O -> i <> 0%nat -> s_info st !! i = Some x ->
    same_typed x (new_info data f count) = true <->
    i_data x = data /\ i_type x = f_type f /\ matchable (i_type x) = true /\ (compound (i_type x) = true -> f_tdp (D i) = f_tdp f).
  Proof.
    intros I I0 Ex. assert (exists h, i_fdp x = Some h /\ f_tdp h = f_tdp (D i)) as (h & Eh & Th).
    { destruct (decide (i ∈ O)) as [Ho|Ho].
      - destruct (v_fdp_o _ _ _ _ _ I i x I0 Ho Ex) as [-> _]. eauto.
      - destruct (v_fdp_c _ _ _ _ _ I i x I0 Ho Ex) as (h & -> & _ & ? & _). eauto. }
    unfold same_typed. rewrite Eh. cbn -[T_ARRAY T_POINTER T_BITFIELD T_STRUCT T_ENUM]. unfold matchable, compound. rewrite Th.
    destruct (Z.eqb_spec (i_data x) data); cbn -[T_ARRAY T_POINTER T_BITFIELD T_STRUCT T_ENUM]; [|naive_solver].
    destruct (Z.eqb_spec (i_type x) (f_type f)) as [Et|]; cbn -[T_ARRAY T_POINTER T_BITFIELD T_STRUCT T_ENUM]; [|naive_solver].
    destruct ((i_type x =? T_ARRAY) || (i_type x =? T_POINTER) || (i_type x =? T_BITFIELD)); [naive_solver|]. cbn.
    destruct ((i_type x =? T_STRUCT) || (i_type x =? T_ENUM) || union_type (i_type x)); [|naive_solver].
    rewrite bool_decide_eq_true. naive_solver.
  Qed.

  Lemma move_inv st K D O par npar px q r xr xq f data count n st' : Inv W st K D O -> par <> 0%nat -> lns st !! par = Some npar -> is_ref npar = false ->
    s_info st !! par = Some px -> ptr_or_str (i_type px) = false -> par ∈ O -> (forall o, o ∈ O -> anc (parf (lns st)) par o) ->
    hitc (lns st) K (cache (s_ptrs st)) par -> fd_ok W f -> np_ok W D par f -> 1 <= count -> f_size f * count < 2 ^ 32 ->
    r <> 0%nat -> s_info st !! r = Some xr -> parf (lns st) r = q -> q <> 0%nat -> s_info st !! q = Some xq -> ptr_or_str (i_type xq) = true ->
    same_typed xr (new_info data f count) = true -> ~ anc (parf (lns st)) par r ->
    move_nodes W st q (new_info data f count) par = Some (n, st') ->
    let K1 := fset (fset K q []) par (K par ++ [r]) in let D1 := dset D r f in
    n = 1 /\ Inv W st' K1 D1 O /\ Ext par st K D st' K1 D1 /\ cache (s_ptrs st') = r /\ (exists x', s_info st' !! r = Some x' /\ i_data x' = data) /\
      parf (lns st') r = par.
  Proof.
    intros I P Ep Rp Epx Psp Po Oa Hit Fo Np Cn Sz R0 Er Pr Q0 Eq Psq Sm Nan H K1 D1.
    pose proof (v_len _ _ _ _ _ I) as Ln. pose proof (v_for _ _ _ _ _ I) as R.
    apply (same_typed_alike _ _ _ _ _ _ _ _ _ I R0 Er) in Sm as (Sd & St & Sm & Sc).
    pose proof (lookup_lt_Some _ _ _ Ep) as Lp. pose proof (lookup_lt_Some _ _ _ Er) as Lr. rewrite Ln in Lr.
    assert (r ∈ K q) as Hrq by (apply (fo_in _ _ R); done).
    assert (K q = [r]) as Kq.
    { destruct (v_one _ _ _ _ _ I q xq Q0 Eq Psq) as [E|(c & xc & E & _)]; rewrite E in Hrq; [by apply elem_of_nil in Hrq|].
      apply elem_of_list_singleton in Hrq as ->. done. }
    assert (q <> par) as Nqp by (intros ->; congruence).
    assert (q <> r) as Nqr by (intros E; apply (kid_not_anc _ _ R _ _ Hrq); rewrite E; constructor).
    destruct (lookup_lt_is_Some_2 (lns st) q) as [nq Enq]; [rewrite <- Ln; by eapply lookup_lt_Some|].
    destruct (lookup_lt_is_Some_2 (lns st) r) as [nr Enr]; [done|].
    destruct (move_ok (lns st) K (cache (s_ptrs st)) par npar q r nq nr) as (ns' & Ea & L' & R' & Fr); try done.
    pose proof (fo_kids _ _ R _ _ Enq) as Lk. destruct (is_ref nq) eqn:Rq; [congruence|]. rewrite Kq in Lk. destruct Lk as (Fq & _ & nr0 & Er0 & Nx).
    rewrite Enr in Er0. injection Er0 as <-. cbn in Nx.
    unfold move_nodes in H. rewrite (rd_lu _ _ _ Enq) in H. cbn [mbind option_bind] in H. rewrite (upd_link_eq _ _ _ _ Enq) in H. cbn [mbind option_bind] in H.
    rewrite Fq in H. set (ns1 := <[q := mark_ref nq]> (lns st)) in *.
    assert (ns1 !! r = Some nr) as En1 by (unfold ns1; by rewrite list_lookup_insert_ne).
    rewrite (upd_link_eq _ _ nr) in H by done. cbn [mbind option_bind] in H. cbn [cache s_ptrs lns ra s_info s_heads] in H.
    set (st2 := SSt (Ptrs (<[r := mark_referenced nr]> ns1) (cache (s_ptrs st))) (s_info st) (s_heads st)) in *.
    cbn [move_loop] in H. destruct (Nat.eqb_spec r 0) as [|_]; [done|].
    assert (lns st2 !! r = Some (mark_referenced nr)) as E2 by (cbn; apply list_lookup_insert; unfold ns1; by rewrite insert_length).
    rewrite (rd_lu _ _ _ E2) in H. cbn [mbind option_bind] in H. apply bind_Some in H as (h & Hh & H).
    rewrite (upd_info_eq st2 r xr) in H by done. cbn [mbind option_bind] in H. cbn [s_ptrs st2] in H.
    change (Ptrs (<[r:=mark_referenced nr]> ns1) (cache (s_ptrs st))) with (Ptrs (<[r := mark_refd' nr]> (<[q := mark_ref' nq]> (lns st))) (cache (s_ptrs st))) in H.
    rewrite Ea in H. cbn [mbind option_bind] in H. cbn [next mark_referenced] in H. rewrite Nx in H.
    destruct (length _) as [|k] in H; [done|]. cbn [move_loop] in H. cbn [Nat.eqb] in H. injection H as <- <-. split; [done|].
    cbn [s_ptrs s_info s_heads cache lns ra].
    assert (forall i, parf (lns st2) i = parf (lns st) i) as P2.
    { intros i. unfold parf. cbn. destruct (Nat.eq_dec i r) as [->|Nir].
      - rewrite list_lookup_insert by (unfold ns1; by rewrite insert_length). by rewrite Enr.
      - rewrite list_lookup_insert_ne by done. unfold ns1. destruct (Nat.eq_dec i q) as [->|Niq].
        + rewrite list_lookup_insert by (by eapply lookup_lt_Some). by rewrite Enq.
        + by rewrite list_lookup_insert_ne. }
    cbn [i_fdp new_info] in Hh. destruct (persistent_ok st K D O st2 f par h I eq_refl P2) as (g & -> & Ng & Tg & Bg & Eg); [by rewrite Ln|done|apply Fo|done|].
    set (x' := take_over xr (Some g) _ _ _ _). set (st' := SSt _ _ _).
    change (ra {| ra := ns'; cache := r |}) with (lns st'). 
    assert (s_info st' !! r = Some x') as Ex' by (cbn; apply list_lookup_insert; by rewrite Ln).
    assert (forall i, i <> r -> s_info st' !! i = s_info st !! i) as Io by (intros i Ni; cbn; by apply list_lookup_insert_ne).
    assert (forall i, i <> r -> D1 i = D i) as Do by (intros i Ni; unfold D1; by apply dset_other).
    assert (D1 r = f) as Dn by apply dset_same.
    assert (forall i y, s_info st' !! i = Some y -> i = r /\ y = x' \/ i <> r /\ s_info st !! i = Some y) as Cs.
    { intros i y Ey. destruct (Nat.eq_dec i r) as [->|Ni]; [left; split; congruence|right]. rewrite Io in Ey; done. }
    assert (i_data x' = i_data xr /\ i_type x' = i_type xr /\ i_chain x' = i_chain xr /\ i_null x' = i_null xr /\ i_opaque x' = i_opaque xr /\ i_cref x' = i_cref xr) as (X1 & X2 & X3 & X4 & X5 & X6).
    { unfold x'. cbn. rewrite St. done. }
    assert (i_size x' = f_size f * count) as X7.
    { unfold x', take_over, new_info. cbn [i_size]. destruct Fo as [[Fs _] _]. by apply w32_moved. }
    assert (forall i, parf (lns st') i = if Nat.eqb i r then par else parf (lns st) i) as Pf.
    { intros i. change (lns st') with ns'. destruct (Nat.lt_ge_cases i (length (lns st))) as [L|L].
      - destruct (lookup_lt_is_Some_2 (lns st) i L) as [m Em]. destruct (Fr i m Em) as (m' & Em' & Pm & _). by rewrite (parf_lu _ _ _ Em), (parf_lu _ _ _ Em').
      - destruct (Nat.eqb_spec i r); [nlia|]. unfold parf. rewrite !lookup_ge_None_2; [done|nlia|nlia]. }
    assert (matchable (i_type xr) = true -> i_type xr <> T_POINTER /\ i_type xr <> T_ARRAY) as Mt.
    { clear. unfold matchable. intros H. split; intros E; rewrite E in H; done. }
    destruct (Mt Sm) as [Tp Ta].
    assert (r ∉ O) as Nro by (intros Ho; by apply Nan, Oa).
    assert (Ext par st K D st' K1 D1) as Ex.
    { constructor.
      - cbn. by rewrite insert_length.
      - intros i x E. destruct (Nat.eq_dec i r) as [->|Ni].
        + rewrite Er in E. injection E as <-. exists x'. split; [done|]. unfold same_id. rewrite X1, X2, X3, X4, X5. do 5 (split; [done|]). done.
        + rewrite Io by done. exists x. done.
      - intros i x I0 E. destruct (Nat.eq_dec i r) as [->|Ni].
        + right. rewrite Er in E. injection E as <-. rewrite Pr, Dn. split; [eauto|]. split; [done|]. intros Hc. by rewrite Sc.
        + left. rewrite Pf, Do by done. apply Nat.eqb_neq in Ni. by rewrite Ni.
      - intros i x I0 E Nip Psi. unfold K1. rewrite fset_other by done. rewrite fset_other; [done|]. intros ->. congruence.
      - intros i I0 Li Hd. destruct (Nat.eq_dec i q) as [->|Niq].
        + right. destruct (Fr _ _ Enq) as (m' & Em' & _ & Rm & _). rewrite Nat.eqb_refl in Rm. eauto.
        + destruct Hd as [Hd|(m & Em & Rm)].
          * left. unfold K1. destruct (Nat.eq_dec i par) as [->|Nip]; [rewrite fset_same; by destruct (K par)|]. by rewrite !fset_other.
          * right. destruct (Fr _ _ Em) as (m' & Em' & _ & Rm' & _). exists m'. split; [done|]. rewrite Rm'. by destruct (Nat.eqb i q).
      - intros i I0 Ha. assert (i <> r) as Nir by (intros ->; done). rewrite Io, Do, Pf by done. do 2 (split; [by try (apply Nat.eqb_neq in Nir; rewrite Nir)|]).
        split; [done|]. intros Nip. unfold K1. rewrite fset_other by done. destruct (Nat.eq_dec i q) as [->|Niq]; [|by rewrite fset_other].
        exfalso. destruct (anc_step _ _ R par q Ha) as (c & Hc & Hac); try done.
        rewrite Kq in Hc. apply elem_of_list_singleton in Hc as ->. done.
      - intros i x I0 E1 T1 Nip Hd. destruct (Nat.eq_dec i q) as [->|Niq]; [left; by rewrite Kq|]. destruct Hd as [Hd|(m' & Em' & Rm')].
        + left. unfold K1 in Hd. by rewrite !fset_other in Hd.
        + right. apply lookup_lt_Some in E1. rewrite Ln in E1. destruct (lookup_lt_is_Some_2 (lns st) i E1) as [m Em]. exists m. split; [done|].
          destruct (Fr _ _ Em) as (m2 & Em2 & _ & A2 & _). change (lns st') with ns' in Em'. rewrite Em' in Em2. injection Em2 as <-.
          apply Nat.eqb_neq in Niq. rewrite Niq in A2. congruence.
      - intros i x Li E1. cbn in E1. apply lookup_lt_Some in E1. rewrite insert_length in E1. nlia. }
    split; [|split; [done|split; [done|split; [exists x'; split; [done|by rewrite X1]|by rewrite Pf, Nat.eqb_refl]]]].
    constructor.
    - cbn. rewrite insert_length, L'. done.
    - exact R'.
    - intros o Ho. change (lns st') with ns'. rewrite L'. by apply I.
    - intros i y I0 Ey. destruct (Cs _ _ Ey) as [[-> ->]|[Ni Ey0]].
      + unfold id_ok. rewrite Dn, X2, X6. destruct (v_id _ _ _ _ _ I r xr R0 Er) as (_ & _ & _ & _ & B5 & B6). split; [done|]. split; [done|]. split; [done|]. split; [done|]. split; [done|].
        intros Hs. rewrite St in Hs |- *. destruct Fo as [Fs [_ Fo]]. destruct (Z.eqb_spec (f_type f) T_ARRAY) as [E|]; [by rewrite E in Hs|]. destruct Fo as (_ & Fu & _).
        destruct (Fu Hs) as (u & Hu & Lu). exists u. split; [done|]. rewrite X7. apply room; [done|apply Fs|done].
      + unfold id_ok. rewrite Do by done. by apply (v_id _ _ _ _ _ I).
    - intros i y I0 Hi Ey. destruct (Cs _ _ Ey) as [[-> ->]|[Ni Ey0]]; [done|]. rewrite Do by done. destruct (v_fdp_o _ _ _ _ _ I i y I0 Hi Ey0) as [A1 A2].
      split; [done|]. rewrite Pf. apply Nat.eqb_neq in Ni as ->. intros Hn. destruct (A2 Hn) as [?|[Pz Ht]]; [by left|right]. split; [done|].
      rewrite Do; [done|]. intros E. apply Nan. rewrite <- E. eapply anc_trans; [by apply Oa|]. apply anc_up; [done|constructor].
    - intros i y I0 Hi Ey. destruct (Cs _ _ Ey) as [[-> ->]|[Ni Ey0]]; [rewrite Dn; cbn; eauto 7|]. rewrite Do by done. by apply (v_fdp_c _ _ _ _ _ I).
    - intros i y I0 Hi Ey. assert (exists z, s_info st !! i = Some z) as [z Ez].
      { destruct (Cs _ _ Ey) as [[-> ->]|[Ni Ey0]]; eauto. }
      eapply node_ok_ext; [exact I|exact Ex|done|exact Ez|done| |by apply (v_node _ _ _ _ _ I)]. intros ->. done.
    - intros i y m' Ey Em' Rm'. change (lns st') with ns' in Em'. destruct (lookup_lt_is_Some_2 (lns st) i) as [m Em].
      { rewrite <- L'. by eapply lookup_lt_Some. }
      destruct (Fr _ _ Em) as (m2 & Em2 & _ & A2 & _ & _ & _ & _ & A3). rewrite Em2 in Em'. injection Em' as ->.
      assert (i <> par) as Nip. { intros ->. rewrite A2 in Rm'. destruct (Nat.eqb_spec par q); [congruence|]. congruence. }
      assert (forall j nj, lns st !! j = Some nj -> exists nj', ns' !! j = Some nj' /\ (referenced nj = true \/ j = r -> referenced nj' = true)) as Rf.
      { intros j nj Ej. destruct (Fr _ _ Ej) as (nj' & Ej' & _ & _ & B & _). exists nj'. split; [done|]. rewrite B. intros [-> | ->]; [by destruct (Nat.eqb j r)|by rewrite Nat.eqb_refl]. }
      assert (forall j z, s_info st !! j = Some z -> exists z', s_info st' !! j = Some z' /\ i_data z' = i_data z /\ i_type z' = i_type z /\
                (compound (i_type z) = true -> f_tdp (D1 j) = f_tdp (D j))) as Gz.
      { intros j z Ez. destruct (Nat.eq_dec j r) as [->|Nj]; [rewrite Er in Ez; injection Ez as <-; exists x'; rewrite Dn; do 3 (split; [done|]); intros Hc; by rewrite Sc|].
        rewrite Io, Do by done. eauto. }
      rewrite A3 by done. destruct (Nat.eq_dec i q) as [->|Niq].
      + rewrite Enq in Em. injection Em as <-. rewrite Fq. destruct (Cs _ _ Ey) as [[? _]|[_ Ey0]]; [congruence|]. rewrite Eq in Ey0. injection Ey0 as <-.
        split; [done|]. split; [done|]. destruct (Rf _ _ Enr) as (nr' & Enr' & Hr). exists x', nr'. split; [done|]. split; [done|]. split; [by apply Hr; right|].
        destruct (v_one _ _ _ _ _ I q xq Q0 Eq Psq) as [E|(c & xc & E & Ec & Cok)]; [congruence|]. rewrite Kq in E. injection E as <-.
        rewrite Er in Ec. injection Ec as <-. destruct Cok as [Tok Ttd]. unfold target_ok in *. rewrite X1, X2, Dn, Do by done. split; [done|].
        intros Tq. split; [done|]. intros Hc. rewrite <- Sc by done. by rewrite Ttd.
      + assert (is_ref m = true) as Rm. { apply Nat.eqb_neq in Niq. by rewrite Niq in A2; rewrite A2 in Rm'. }
        destruct (Cs _ _ Ey) as [[-> ->]|[Nir Ey0]].
        * destruct (v_ref _ _ _ _ _ I r xr m Er Em Rm) as (Q1 & Q2 & z & nz & Q3 & Q4 & Q5 & Q6 & Q7). split; [by rewrite X2|]. split; [done|].
          destruct (Rf _ _ Q4) as (nz' & Enz' & Hr). destruct (Gz _ _ Q3) as (z' & Ez' & B1 & B2 & B3). exists z', nz'. do 2 (split; [done|]). split; [by apply Hr; left|].
          unfold target_ok in *. rewrite X1, X2, B1, B2. destruct Q6 as (Q61 & Q62 & Q63).
          assert (i_type xr = T_STRING) as Ts by (clear -Q1 Tp; unfold ptr_or_str in Q1; lia). rewrite Ts in *. split; [done|]. done.
        * destruct (v_ref _ _ _ _ _ I i y m Ey0 Em Rm) as (Q1 & Q2 & z & nz & Q3 & Q4 & Q5 & Q6 & Q7). split; [done|]. split; [done|].
          destruct (Rf _ _ Q4) as (nz' & Enz' & Hr). destruct (Gz _ _ Q3) as (z' & Ez' & B1 & B2 & B3). exists z', nz'. do 2 (split; [done|]). split; [by apply Hr; left|].
          unfold target_ok in *. rewrite B1, B2, (Do i) by done. split; [done|]. intros Ti. split; [by apply Q7|]. intros Hc. rewrite B3 by done. by apply Q7.
    - intros i y I0 Ey Psi. assert (i <> par) as Nip.
      { intros ->. rewrite Io in Ey by (intros ->; apply Nan; constructor). congruence. }
      unfold K1. rewrite fset_other by done. destruct (Nat.eq_dec i q) as [->|Niq]; [left; by rewrite fset_same|]. rewrite fset_other by done.
      assert (forall c, c ∈ K i -> c <> r) as Nc by (intros c Hc ->; apply (kid_lt _ _ R) in Hc as (_ & _ & _ & _ & ?); congruence).
      destruct (Cs _ _ Ey) as [[-> ->]|[Nir Ey0]].
      + rewrite X2 in Psi. destruct (v_one _ _ _ _ _ I r xr I0 Er Psi) as [?|(c & xc & E & Ec & Cok)]; [by left|right].
        exists c, xc. split; [done|]. rewrite Io by (apply Nc; rewrite E; left). split; [done|]. destruct Cok as [Tok Ttd]. unfold content_ok, target_ok in *.
        rewrite X1, X2. assert (i_type xr = T_STRING) as Ts by (clear -Psi Tp; unfold ptr_or_str in Psi; lia). rewrite Ts in *. done.
      + destruct (v_one _ _ _ _ _ I i y I0 Ey0 Psi) as [?|(c & xc & E & Ec & Cok)]; [by left|right].
        exists c, xc. split; [done|]. assert (c <> r) by (apply Nc; rewrite E; left). rewrite Io by done. split; [done|]. unfold content_ok, target_ok in *. by rewrite !Do.
    - intros i y I0 Ey. assert (exists z, s_info st !! i = Some z /\ i_data z = i_data y) as (z & Ez & Dz).
      { destruct (Cs _ _ Ey) as [[-> ->]|[Ni Ey0]]; eauto. }
      rewrite <- Dz. eapply reach_map; [|by apply (v_chain _ _ _ _ _ I)]. intros j w Ew. destruct (e_info _ _ _ _ _ _ _ Ex j w Ew) as (w' & Ew' & _ & _ & C & _). eauto.
    - intros p1 q1 c d xp xq1 xc xd Ncd Hc Hd Exp Exq Exc Exd Tp1 Tq1.
      assert (forall p c xp, c ∈ K1 p -> s_info st' !! p = Some xp -> ptr_or_str (i_type xp) = true ->
        c ∈ K p /\ c <> r /\ exists x0, s_info st !! p = Some x0 /\ ptr_or_str (i_type x0) = true) as Kc.
      { intros p' c' xp' Hc' Ep' Tp'. assert (exists x0, s_info st !! p' = Some x0 /\ ptr_or_str (i_type x0) = true) as (x0 & E0 & T0).
        { destruct (Cs _ _ Ep') as [[-> ->]|[_ E0]]; [|eauto]. exists xr. split; [done|]. by rewrite X2 in Tp'. }
        assert (p' <> par) as Npp by (intros ->; rewrite Epx in E0; injection E0 as <-; congruence).
        unfold K1 in Hc'. rewrite fset_other in Hc' by done. destruct (Nat.eq_dec p' q) as [->|Npq].
        - rewrite fset_same in Hc'. by apply elem_of_nil in Hc'.
        - rewrite fset_other in Hc' by done. split; [done|]. split; [|eauto]. intros ->. apply (kid_lt _ _ R) in Hc' as (_ & _ & _ & _ & ?). congruence. }
      destruct (Kc _ _ _ Hc Exp Tp1) as (Hc' & Ncr & xp0 & Exp0 & Tp0). destruct (Kc _ _ _ Hd Exq Tq1) as (Hd' & Ndr & xq0 & Exq0 & Tq0).
      rewrite Io in Exc, Exd by done. intros Hal. unfold alike in Hal. rewrite !Do in Hal by done. by eapply (v_uniq _ _ _ _ _ I p1 q1 c d xp0 xq0).
  Qed.
End Steps.
