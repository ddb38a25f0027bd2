From Verif Require Import Base TdList.

(** The [next] members lead from [h] through exactly the list [l]. *)
Inductive chain (nx : list (option nat)) : option nat -> list nat -> Prop :=
  | chain_nil : chain nx None []
  | chain_cons p q l : nx !! p = Some q -> chain nx q l -> chain nx (Some p) (p :: l).

Lemma chain_det nx h l1 l2 : chain nx h l1 -> chain nx h l2 -> l1 = l2.
Proof.
  intros H. revert l2. induction H as [|p q l Hp H IH]; intros l2 H2; inversion H2; subst; [done|].
  f_equal. apply IH. congruence.
Qed.
Lemma chain_suffix nx h l1 p l2 : chain nx h (l1 ++ p :: l2) -> chain nx (Some p) (p :: l2).
Proof.
  revert h. induction l1 as [|x l1 IH]; intros h H; inversion H; subst; [by econstructor|eauto].
Qed.
Lemma chain_NoDup nx h l : chain nx h l -> NoDup l.
Proof.
  intros H. induction H as [|p q l Hp H IH]; [constructor|]. constructor; [|done].
  intros Hin. apply elem_of_list_split in Hin as (l1 & l2 & ->).
  apply chain_suffix in H as Hs. 
  assert (H' : chain nx (Some p) (p :: l1 ++ p :: l2)) by (econstructor; done).
  pose proof (chain_det _ _ _ _ Hs H') as E. apply (f_equal length) in E.
  cbn in E. rewrite app_length in E. cbn in E. lia.
Qed.
Lemma chain_lookup nx h l p : chain nx h l -> p ∈ l -> p < length nx.
Proof.
  intros H. induction H as [|x q l Hp H IH]; intros Hin; [by apply elem_of_nil in Hin|].
  apply elem_of_cons in Hin as [->|]; [by eapply lookup_lt_Some|eauto].
Qed.
Lemma chain_ext nx nx' h l : chain nx h l -> (forall p, p ∈ l -> nx' !! p = nx !! p) -> chain nx' h l.
Proof.
  intros H. induction H as [|x q l Hp H IH]; intros He; [constructor|].
  econstructor; [rewrite He; [done|left]|]. apply IH. intros p Hin. apply He. by right.
Qed.
Lemma chain_insert nx h l p q : chain nx h l -> p ∉ l -> chain (<[p := q]> nx) h l.
Proof.
  intros H Hn. eapply chain_ext; [done|]. intros x Hx. apply list_lookup_insert_ne. naive_solver.
Qed.

Lemma elem_of_rev {A} (l : list A) x : x ∈ rev l <-> x ∈ l.
Proof. rewrite !elem_of_list_In. symmetry. apply in_rev. Qed.

Section td.
Context (prod : nat -> nat).

Definition of_prod (i : nat) (l : list nat) : list nat := filter (fun p => prod p = i) l.
Definition by_prod (l : list nat) : list nat := of_prod 0 l ++ of_prod 1 l ++ of_prod 2 l ++ of_prod 3 l.

Lemma elem_of_prod i l p : p ∈ of_prod i l <-> prod p = i /\ p ∈ l.
Proof. unfold of_prod. by rewrite elem_of_list_filter. Qed.

Lemma of_prod_snoc i l p : of_prod i (l ++ [p]) = of_prod i l ++ (if decide (prod p = i) then [p] else []).
Proof. unfold of_prod. rewrite filter_app, filter_cons, filter_nil. done. Qed.

(** State of the first loop: [done] visited, [todo] still to visit. *)
Lemma split_loop_ok fuel nx nx0 bp (done_ todo : list nat) (tdp : option nat) :
  length todo <= fuel ->
  NoDup (done_ ++ todo) ->
  chain nx tdp todo ->
  length bp = TDP_LAST ->
  (forall i h, bp !! i = Some h -> chain nx h (rev (of_prod i done_))) ->
  (forall p, p ∉ done_ -> nx !! p = nx0 !! p) -> length nx = length nx0 ->
  exists nx' bp', split_loop prod fuel nx bp tdp = Some (nx', bp') /\ length bp' = TDP_LAST /\
    length nx' = length nx0 /\
    (forall i h, bp' !! i = Some h -> chain nx' h (rev (of_prod i (done_ ++ todo)))) /\
    (forall p, p ∉ done_ ++ todo -> nx' !! p = nx0 !! p).
Proof.
  revert nx bp done_ tdp fuel. induction todo as [|p todo IH]; intros nx bp dn tdp fuel Hf Hnd Hc Hl Hb Ho Hln.
  - inversion Hc; subst. exists nx, bp. rewrite app_nil_r. split; [by destruct fuel|]. done.
  - inversion Hc as [|p' q l Hp Hq]; subst. destruct fuel as [|fuel]; [cbn in Hf; lia|].
    cbn [split_loop]. rewrite (rd_lu _ _ _ Hp). cbn [mbind option_bind].
    assert (Hnp : p ∉ todo /\ p ∉ dn).
    { apply NoDup_app in Hnd as (H1 & H2 & H3). apply NoDup_cons in H3 as [H3 _]. split; [done|].
      intros H. apply (H2 p H). left. }
    destruct Hnp as [Hnt Hnd'].
    assert (Ea : dn ++ p :: todo = (dn ++ [p]) ++ todo) by (rewrite <- app_assoc; done).
    assert (Hpl : p < length nx) by (by eapply lookup_lt_Some).
    destruct (Nat.ltb_spec (prod p) TDP_LAST) as [Hlt|Hge].
    + destruct (lookup_lt_is_Some_2 bp (prod p)) as [h Hh]; [lia|].
      rewrite (rd_lu _ _ _ Hh). cbn [mbind option_bind].
      rewrite (wr_Some nx p h) by done. cbn [mbind option_bind].
      rewrite (wr_Some bp) by lia. cbn [mbind option_bind].
      rewrite Ea. apply IH.
      * cbn in Hf. lia.
      * by rewrite <- Ea.
      * by apply chain_insert.
      * by rewrite insert_length.
      * intros i g Hg. rewrite of_prod_snoc.
        apply list_lookup_insert_Some in Hg as [(<- & <- & _)|[Hne Hg]].
        -- rewrite decide_True by done. rewrite rev_app_distr. cbn [rev app].
           econstructor; [by apply list_lookup_insert|].
           apply chain_insert; [by apply Hb|]. rewrite elem_of_rev, elem_of_prod. naive_solver.
        -- rewrite decide_False by done. rewrite app_nil_r. apply chain_insert; [by apply Hb|].
           rewrite elem_of_rev, elem_of_prod. naive_solver.
      * intros x Hx. rewrite elem_of_app, elem_of_list_singleton in Hx.
        rewrite list_lookup_insert_ne by naive_solver. apply Ho. naive_solver.
      * by rewrite insert_length.
    + rewrite Ea. apply IH; try done.
      * cbn in Hf. lia.
      * by rewrite <- Ea.
      * intros i g Hg. rewrite of_prod_snoc.
        apply lookup_lt_Some in Hg as Hlt. rewrite decide_False by lia. rewrite app_nil_r. by apply Hb.
      * intros x Hx. rewrite elem_of_app, elem_of_list_singleton in Hx. apply Ho. naive_solver.
Qed.

Lemma move_loop_ok fuel nx root tdp l r :
  length l <= fuel -> chain nx tdp l -> chain nx root r -> (forall p, p ∈ l -> p ∉ r) ->
  exists nx' root', move_loop fuel nx root tdp = Some (nx', root') /\ chain nx' root' (rev l ++ r) /\
    length nx' = length nx /\ (forall p, p ∉ l -> nx' !! p = nx !! p).
Proof.
  revert nx root tdp r fuel. induction l as [|p l IH]; intros nx root tdp r fuel Hf Hl Hr Hd.
  - inversion Hl; subst. exists nx, root. destruct fuel; done.
  - pose proof (chain_NoDup _ _ _ Hl) as Hnd. inversion Hl as [|p' q l' Hp Hq]; subst.
    apply NoDup_cons in Hnd as [Hn _].
    destruct fuel as [|fuel]; [cbn in Hf; lia|]. cbn [move_loop].
    rewrite (rd_lu _ _ _ Hp). cbn [mbind option_bind].
    assert (Hpl : p < length nx) by (by eapply lookup_lt_Some).
    rewrite wr_Some by done. cbn [mbind option_bind].
    destruct (IH (<[p := root]> nx) (Some p) q (p :: r) fuel) as (nx' & root' & E & Hc & Hln & Ho).
    + cbn in Hf. lia.
    + by apply chain_insert.
    + econstructor; [by apply list_lookup_insert|]. apply chain_insert; [done|]. apply Hd. left.
    + intros x Hx. rewrite elem_of_cons. intros [->|Hx']; [done|]. eapply (Hd x); [by right|done].
    + exists nx', root'. split; [done|]. split.
      { cbn [rev]. rewrite <- app_assoc. exact Hc. }
      split; [by rewrite Hln, insert_length|].
      intros x Hx. rewrite elem_of_cons in Hx. rewrite Ho by naive_solver.
      apply list_lookup_insert_ne. naive_solver.
Qed.

Lemma rev_filter_prod i l : rev (rev (of_prod i l)) = of_prod i l.
Proof. apply rev_involutive. Qed.

Lemma in_rev_prod i l p : p ∈ rev (of_prod i l) <-> prod p = i /\ p ∈ l.
Proof. rewrite elem_of_rev. apply elem_of_prod. Qed.

Lemma of_prod_len i l : length (of_prod i l) <= length l.
Proof. apply filter_length. Qed.

Lemma join_loop_ok fuel n nx bp root l r :
  length l <= fuel -> n <= length bp ->
  (forall i h, i < n -> bp !! i = Some h -> chain nx h (rev (of_prod i l))) ->
  chain nx root r -> (forall p, p ∈ r -> p ∈ l /\ n <= prod p) ->
  exists nx' root', join_loop fuel n nx bp root = Some (nx', root') /\
    chain nx' root' (concat (map (fun i => of_prod i l) (seq 0 n)) ++ r) /\
    length nx' = length nx /\ (forall p, p ∉ l -> nx' !! p = nx !! p).
Proof.
  revert nx root r. induction n as [|n IH]; intros nx root r Hf Hbl Hb Hr Hin.
  - exists nx, root. done.
  - cbn [join_loop]. destruct (lookup_lt_is_Some_2 bp n) as [h Hh]; [lia|].
    rewrite (rd_lu _ _ _ Hh). cbn [mbind option_bind].
    destruct (move_loop_ok fuel nx root h (rev (of_prod n l)) r) as (nx' & root' & -> & Hc & Hln & Ho).
    + rewrite rev_length. pose proof (of_prod_len n l). lia.
    + apply Hb; [lia|done].
    + done.
    + intros p Hp Hpr. apply in_rev_prod in Hp as [Hp _]. apply Hin in Hpr as [_ Hpr]. lia.
    + cbn [mbind option_bind].
      destruct (IH nx' root' (of_prod n l ++ r)) as (nx2 & root2 & E & Hc2 & Hl2 & Ho2).
      * done.
      * lia.
      * intros i g Hi Hg. eapply chain_ext; [apply Hb; [lia|done]|].
        intros p Hp. apply Ho. intros Hp'. apply in_rev_prod in Hp as [Hp _]. apply in_rev_prod in Hp' as [Hp' _]. lia.
      * by rewrite rev_filter_prod in Hc.
      * intros p Hp. apply elem_of_app in Hp as [Hp|Hp].
        -- apply elem_of_prod in Hp as [<- Hp]. done.
        -- apply Hin in Hp as [Hp1 Hp2]. split; [done|lia].
      * exists nx2, root2. split; [done|]. split; [|split].
        -- rewrite seq_S, map_app, concat_app. cbn [map concat Nat.add]. rewrite app_nil_r, <- app_assoc. exact Hc2.
        -- lia.
        -- intros p Hp. rewrite Ho2 by done. apply Ho. rewrite in_rev_prod. naive_solver.
Qed.

Theorem sort_td_ok fuel nx tdp l :
  chain nx tdp l -> length l <= fuel ->
  exists nx' root, sort_td prod fuel nx tdp = Some (nx', root) /\
    chain nx' root (by_prod l) /\ length nx' = length nx /\ (forall p, p ∉ l -> nx' !! p = nx !! p).
Proof.
  intros Hc Hf. unfold sort_td.
  destruct (split_loop_ok fuel nx nx (replicate TDP_LAST None) [] l tdp) as (nx1 & bp & -> & Hbl & Hln & Hb & Ho); try done.
  - by apply chain_NoDup in Hc.
  - intros i h Hi. apply lookup_replicate in Hi as [-> _]. constructor.
  - cbn [mbind option_bind app] in *.
    destruct (join_loop_ok fuel TDP_LAST nx1 bp None l []) as (nx2 & root & E & Hc2 & Hl2 & Ho2); try done.
    + lia.
    + intros i h _ Hi. by apply Hb.
    + constructor.
    + intros p Hp. by apply elem_of_nil in Hp.
    + exists nx2, root. split; [exact E|]. split; [|split; [lia|]].
      * cbn [TDP_LAST seq map concat] in Hc2. rewrite !app_nil_r in Hc2. exact Hc2.
      * intros p Hp. rewrite Ho2 by done. by apply Ho.
Qed.

End td.

Lemma add_types_ok (none : nat -> bool) nx h l ps :
  chain nx h l -> (forall p, p ∈ ps -> nx !! p = Some None /\ none p = false /\ p ∉ l) -> NoDup ps ->
  exists nx' h', add_types none (nx, h) ps = Some (nx', h') /\ chain nx' h' (rev ps ++ l) /\ length nx' = length nx.
Proof.
  revert nx h l. induction ps as [|p ps IH]; intros nx h l Hc Hp Hnd; [by exists nx, h|].
  apply NoDup_cons in Hnd as [Hn Hnd].
  destruct (Hp p) as (H1 & H2 & H3); [left|].
  cbn [add_types add_type]. rewrite (rd_lu _ _ _ H1). cbn [mbind option_bind]. rewrite H2. cbn [orb].
  assert (Hpl : p < length nx) by (by eapply lookup_lt_Some).
  rewrite wr_Some by done. cbn [mbind option_bind].
  destruct (IH (<[p := h]> nx) (Some p) (p :: l)) as (nx' & h' & E & Hc' & Hl).
  - econstructor; [by apply list_lookup_insert|]. by apply chain_insert.
  - intros x Hx. destruct (Hp x) as (K1 & K2 & K3); [by right|].
    assert (x <> p) by naive_solver. rewrite list_lookup_insert_ne by done. split; [done|]. split; [done|].
    rewrite elem_of_cons. naive_solver.
  - done.
  - exists nx', h'. split; [done|]. split; [|by rewrite Hl, insert_length].
    cbn [rev]. rewrite <- app_assoc. exact Hc'.
Qed.

Section reg.
Context (name : nat -> N).

Fixpoint reg_spec (reg l : list nat) : list nat :=
  match l with
  | [] => reg
  | p :: l => reg_spec (if existsb (fun q => N.eqb (name q) (name p)) reg then reg else reg ++ [p]) l
  end.

Lemma register_loop_ok fuel nx reg tdp l :
  chain nx tdp l -> length l <= fuel -> register_loop name fuel nx reg tdp = Some (reg_spec reg l).
Proof.
  intros H. revert reg fuel. induction H as [|p q l Hp H IH]; intros reg fuel Hf; [by destruct fuel|].
  destruct fuel as [|fuel]; [cbn in Hf; lia|]. cbn [register_loop reg_spec].
  rewrite (rd_lu _ _ _ Hp). cbn [mbind option_bind]. apply IH. cbn in Hf. lia.
Qed.

Lemma existsb_name reg p : existsb (fun q => N.eqb (name q) (name p)) reg = true <-> exists q, q ∈ reg /\ name q = name p.
Proof.
  rewrite existsb_exists. split; intros (q & H1 & H2); exists q.
  - rewrite elem_of_list_In. apply N.eqb_eq in H2. done.
  - rewrite <- elem_of_list_In. apply N.eqb_eq in H2. done.
Qed.

(** An element is registered iff nothing before it has its name. *)
Lemma reg_spec_in reg l p :
  p ∈ reg_spec reg l <-> p ∈ reg \/
    exists l1 l2, l = l1 ++ p :: l2 /\ (forall q, q ∈ reg ++ l1 -> name q <> name p).
Proof.
  revert reg. induction l as [|x l IH]; intros reg; cbn [reg_spec].
  { split; [by left|]. intros [|(l1 & l2 & E & _)]; [done|]. by destruct l1. }
  rewrite IH. destruct (existsb _ reg) eqn:E.
  - apply existsb_name in E as (q & Hq & Hn). split.
    + intros [|(l1 & l2 & -> & H)]; [by left|]. right. exists (x :: l1), l2. split; [done|].
      intros y Hy. apply elem_of_app in Hy as [Hy|Hy]; [apply H; apply elem_of_app; by left|].
      apply elem_of_cons in Hy as [->|Hy]; [|apply H; apply elem_of_app; by right].
      rewrite <- Hn. apply H. apply elem_of_app. by left.
    + intros [|(l1 & l2 & E & H)]; [by left|]. destruct l1 as [|y l1]; injection E as -> ->.
      * exfalso. eapply (H q); [apply elem_of_app; by left|done].
      * right. exists l1, l2. split; [done|]. intros z Hz. apply H. rewrite elem_of_app, elem_of_cons.
        apply elem_of_app in Hz. naive_solver.
  - assert (Hno : forall q, q ∈ reg -> name q <> name x).
    { intros q Hq Hn. assert (existsb (fun q => N.eqb (name q) (name x)) reg = true) by (apply existsb_name; eauto). congruence. }
    rewrite elem_of_app, elem_of_list_singleton. split.
    + intros [[?| ->]|(l1 & l2 & -> & H)]; [by left| | ].
      * right. exists [], l. split; [done|]. rewrite app_nil_r. done.
      * right. exists (x :: l1), l2. split; [done|]. intros z Hz. apply H.
        rewrite !elem_of_app, elem_of_list_singleton. rewrite elem_of_app, elem_of_cons in Hz. naive_solver.
    + intros [|(l1 & l2 & E' & H)]; [by left; left|]. destruct l1 as [|y l1]; injection E' as -> ->.
      * left; by right.
      * right. exists l1, l2. split; [done|]. intros z Hz. apply H.
        rewrite !elem_of_app, elem_of_list_singleton in Hz. rewrite elem_of_app, elem_of_cons. naive_solver.
Qed.
End reg.

Lemma split_unique (p : nat) (l1 l2 m1 m2 : list nat) :
  NoDup (l1 ++ p :: l2) -> l1 ++ p :: l2 = m1 ++ p :: m2 -> l1 = m1.
Proof.
  revert m1. induction l1 as [|x l1 IH]; intros m1 Hnd E.
  - destruct m1 as [|y m1]; [done|]. injection E as -> ->. cbn in Hnd.
    apply NoDup_cons in Hnd as [H _]. exfalso. apply H. apply elem_of_app. right. left.
  - cbn in Hnd. apply NoDup_cons in Hnd as [H1 H2]. destruct m1 as [|y m1].
    + injection E as -> _. exfalso. apply H1. apply elem_of_app. right. left.
    + injection E as -> E. f_equal. by apply IH.
Qed.
