(** Lemmas about UnionRes.v: the cache of resolved unions agrees with the tree. *)
From Verif Require Import Base UnionSel UnionRes UnionResSpec.

(** A computation with enough fuel. *)
Definition evals {A} (f : nat -> option A) (v : A) : Prop := exists k, forall fuel, k <= fuel -> f fuel = Some v.
Lemma evals_ret {A} (v : A) : evals (fun _ => Some v) v.
Proof. by exists 0. Qed.
Lemma evals_bind {A B} (f : nat -> option A) (g : A -> nat -> option B) v w :
  evals f v -> evals (g v) w -> evals (fun fuel => x ← f fuel; g x fuel) w.
Proof.
  intros [k1 H1] [k2 H2]. exists (k1 + k2). intros fuel Hf. rewrite H1 by lia. cbn. apply H2. lia.
Qed.
Lemma evals_ext {A} (f g : nat -> option A) v : (forall n, f n = g n) -> evals f v -> evals g v.
Proof. intros E [k H]. exists k. intros n Hn. rewrite <- E. by apply H. Qed.
Lemma evals_S {A} (f g : nat -> option A) v : (forall n, g (S n) = f n) -> evals f v -> evals g v.
Proof. intros E [k H]. exists (S k). intros [|n] Hn; [lia|]. rewrite E. apply H. lia. Qed.

Lemma set_find_some eq l k x : set_find eq l k = Some x -> x ∈ l /\ eq k x = true.
Proof. unfold set_find. intros H. apply List.find_some in H as [H1 H2]. by apply elem_of_list_In in H1. Qed.
Lemma set_find_none eq l k : set_find eq l k = None -> forall x, x ∈ l -> eq k x = false.
Proof. intros H x Hx. apply elem_of_list_In in Hx. by eapply List.find_none in H. Qed.
Lemma set_add_spec eq l k l' x : set_add eq l k = (l', x) ->
  x ∈ l' /\ (x = k \/ (x ∈ l /\ eq k x = true)) /\ (forall i, i ∈ l' -> i ∈ l \/ i = k) /\ (forall i, i ∈ l -> i ∈ l').
Proof.
  unfold set_add. destruct (set_find eq l k) as [y|] eqn:E; intros [= <- <-].
  - apply set_find_some in E. split; [tauto|]. split; [by right|]. split; [by left|done].
  - split; [apply elem_of_app; right; apply elem_of_list_singleton; done|]. split; [by left|]. split.
    + intros i Hi. apply elem_of_app in Hi as [Hi|Hi]; [by left|]. apply elem_of_list_singleton in Hi. by right.
    + intros i Hi. apply elem_of_app. by left.
Qed.
Lemma set_fold_spec eq l ic : 
  (forall i, i ∈ fold_left (fun ic k => fst (set_add eq ic k)) l ic -> i ∈ l \/ i ∈ ic) /\
  (forall i, i ∈ ic -> i ∈ fold_left (fun ic k => fst (set_add eq ic k)) l ic) /\
  (forall i, i ∈ l -> exists j, j ∈ fold_left (fun ic k => fst (set_add eq ic k)) l ic /\ (j = i \/ eq i j = true)).
Proof.
  revert ic. induction l as [|k l IH]; intros ic; cbn.
  - split; [by right|]. split; [done|]. intros i Hi. by apply elem_of_nil in Hi.
  - destruct (set_add eq ic k) as [ic' x] eqn:E. apply set_add_spec in E as (E1 & E2 & E3 & E4). cbn.
    destruct (IH ic') as (I1 & I2 & I3). split; [|split].
    + intros i Hi. apply I1 in Hi as [Hi|Hi]; [left; by right|]. apply E3 in Hi as [Hi|Hi]; [by right|]. subst. left. left.
    + intros i Hi. apply I2, E4, Hi.
    + intros i Hi. apply elem_of_cons in Hi as [->|Hi]; [|by apply I3].
      exists x. split; [by apply I2|]. destruct E2 as [->|[_ E2]]; [by left|by right].
Qed.

Section Cache.
  Context (cap : nat) (bytes : Z) (ufds : nat -> ufd) (known : list Z -> bool)
    (field : nat -> list Z -> option fdesc) (choose : udesc -> fdesc -> Z -> option nat).
  Context (members : forall x u, f_type (ufds x) = Some u -> u_names u <> [])
    (chosen : forall u f a, u_names u <> [] -> choose u f a <> None).

  Notation resolves := (resolves field choose).
  Notation member_of := (member_of ufds known field choose).

  Lemma resolves_det nodes u meta s r : resolves nodes u meta s r -> forall r', resolves nodes u meta s r' -> r = r'.
  Proof.
    induction 1 as [|p n f Hn Hf|p n r Hn Hd _ IH]; intros r' H'; inversion H'; subst; [done|congruence|congruence|congruence|].
    apply IH. congruence.
  Qed.
  Lemma resolves_some nodes u meta s r : u_names u <> [] -> resolves nodes u meta s r -> r <> None.
  Proof. intros Hu. induction 1; [done|by apply chosen|done]. Qed.

  (** Chains of parents end. *)
  Inductive upn (nodes : list unode) : nat -> option nat -> Prop :=
    | upn_O : upn nodes 0 None
    | upn_S k p n : nodes !! p = Some n -> upn nodes k (n_parent n) -> upn nodes (S k) (Some p).
  Lemma upn_det nodes k s : upn nodes k s -> forall k', upn nodes k' s -> k = k'.
  Proof. induction 1 as [|k p n Hn _ IH]; intros k' H'; inversion H'; subst; [done|]. f_equal. apply IH. congruence. Qed.

  (** The nodes passed on the way up from one to another. *)
  Inductive walk (nodes : list unode) : list nat -> option nat -> option nat -> Prop :=
    | walk_nil s : walk nodes [] s s
    | walk_cons p n ps stop : nodes !! p = Some n -> walk nodes ps (n_parent n) stop -> walk nodes (p :: ps) (Some p) stop.
  Lemma walk_upn nodes ps s stop k : walk nodes ps s stop -> upn nodes k s -> exists k', upn nodes k' stop /\ k = length ps + k'.
  Proof.
    intros H. revert k. induction H as [s|p n ps stop Hn _ IH]; intros k Hk; [by exists k|].
    inversion Hk as [|k' p' n' Hn' Hk']; subst. destruct (IH k') as (k2 & H2 & ->); [congruence|]. by exists k2.
  Qed.
  Lemma walk_cycle nodes ps s k : walk nodes ps s s -> upn nodes k s -> ps = [].
  Proof. intros H Hk. destruct (walk_upn _ _ _ _ _ H Hk) as (k' & Hk' & E). pose proof (upn_det _ _ _ Hk _ Hk'). destruct ps; [done|cbn in E; lia]. Qed.
  Lemma walk_last nodes ps s p n : walk nodes ps s (Some p) -> nodes !! p = Some n -> walk nodes (ps ++ [p]) s (n_parent n).
  Proof.
    intros H Hn. remember (Some p) as stop eqn:E. revert E. induction H as [s|q m ps stop Hq _ IH]; intros ->; cbn; econstructor; [done|constructor|done|by apply IH].
  Qed.

  (** Growing sets. *)
  Definition ext (ra : list urec) (key : nat) (s s' : udset) : Prop :=
    (forall i, i ∈ elems s' -> i ∈ elems s \/ i = key) /\
    (forall i, i ∈ elems s -> exists j, j ∈ elems s' /\ r_union <$> ra !! j = r_union <$> ra !! i) /\
    (forall l, s' = Small l -> length l <= cap).
  Lemma ext_refl ra key s : (forall l, s = Small l -> length l <= cap) -> ext ra key s s.
  Proof. intros H. split; [by left|]. split; [|done]. intros i Hi. by exists i. Qed.
  Lemma ext_trans ra key s1 s2 s3 : ext ra key s1 s2 -> ext ra key s2 s3 -> ext ra key s1 s3.
  Proof.
    intros (A1 & B1 & C1) (A2 & B2 & C2). split; [|split; [|done]].
    - intros i Hi. apply A2 in Hi as [Hi|Hi]; [|by right]. by apply A1.
    - intros i Hi. destruct (B1 i Hi) as (j & Hj & E). destruct (B2 j Hj) as (j2 & Hj2 & E2). exists j2. split; [done|congruence].
  Qed.
  Lemma same_union_true ra i j : same_union ra i j = true -> r_union <$> ra !! j = r_union <$> ra !! i.
  Proof. unfold same_union. intros H. apply bool_decide_eq_true in H. done. Qed.
  Lemma ud_add_spec ra s key : (forall l, s = Small l -> length l <= cap) ->
    ext ra key s (fst (ud_add cap ra s key)) /\ exists j, j ∈ elems (fst (ud_add cap ra s key)) /\ r_union <$> ra !! j = r_union <$> ra !! key.
  Proof.
    intros Hs. destruct s as [l|l]; cbn [ud_add].
    - destruct (ud_find ra (Small l) key) as [x|] eqn:E.
      + apply set_find_some in E as [E1 E2]. split; [by apply ext_refl|]. exists x. split; [done|]. by apply same_union_true.
      + specialize (Hs l eq_refl). replace (cap <? length l) with false by (symmetry; apply Nat.ltb_ge; lia).
        destruct (length l =? cap) eqn:Ec.
        * destruct (set_add (same_union ra) (fold_left (fun ic k => fst (set_add (same_union ra) ic k)) l []) key) as [ic x] eqn:Ea.
          apply set_add_spec in Ea as (A1 & A2 & A3 & A4). destruct (set_fold_spec (same_union ra) l []) as (F1 & _ & F3). cbn [fst].
          split.
          -- split; [|split; [|done]].
             ++ intros i Hi. apply A3 in Hi as [Hi|Hi]; [|by right]. apply F1 in Hi as [Hi|Hi]; [by left|]. by apply elem_of_nil in Hi.
             ++ intros i Hi. destruct (F3 i Hi) as (j & Hj & Ej). exists j. split; [by apply A4|]. destruct Ej as [->|Ej]; [done|by apply same_union_true].
          -- exists x. split; [done|]. destruct A2 as [->|[_ A2]]; [done|by apply same_union_true].
        * apply Nat.eqb_neq in Ec. cbn [fst]. split.
          -- split; [|split].
             ++ intros i Hi. apply elem_of_app in Hi as [Hi|Hi]; [by left|]. apply elem_of_list_singleton in Hi. by right.
             ++ intros i Hi. exists i. split; [apply elem_of_app; by left|done].
             ++ intros l' [= <-]. rewrite app_length. cbn. lia.
          -- exists key. split; [apply elem_of_app; right; by apply elem_of_list_singleton|done].
    - destruct (set_add (same_union ra) l key) as [ic x] eqn:Ea. apply set_add_spec in Ea as (A1 & A2 & A3 & A4). cbn [fst]. split.
      + split; [|split; [|done]]; [done|]. intros i Hi. exists i. split; [by apply A4|done].
      + exists x. split; [done|]. destruct A2 as [->|[_ A2]]; [done|by apply same_union_true].
  Qed.

  Lemma add_up_spec nodes ra key ps s stop k uds : walk nodes ps s stop -> upn nodes k s -> length uds = length nodes ->
    (forall p l, uds !! p = Some (Small l) -> length l <= cap) ->
    exists uds', evals (fun fuel => add_up cap fuel nodes ra uds s stop key) uds' /\ length uds' = length uds /\
      (forall p s, uds !! p = Some s -> exists s', uds' !! p = Some s' /\ ext ra key s s' /\
        (p ∈ ps -> exists j, j ∈ elems s' /\ r_union <$> ra !! j = r_union <$> ra !! key) /\ (p ∉ ps -> s' = s)).
  Proof.
    intros H. revert k uds. induction H as [s|p n ps stop Hn Hw IH]; intros k uds Hk HL Hc.
    - exists uds. split; [|split; [done|]].
      + exists 1. intros [|m] Hm; [lia|]. cbn. by rewrite decide_True.
      + intros p t Ht. exists t. split; [done|]. split; [apply ext_refl; intros l ->; by eapply Hc|]. split; [|done]. intros Hp. by apply elem_of_nil in Hp.
    - assert (Hne : Some p <> stop).
      { intros <-. assert (p :: ps = []); [|done]. eapply walk_cycle; [|done]. by econstructor. }
      inversion Hk as [|k' p' n' Hn' Hk']; subst. assert (n' = n) as -> by congruence.
      assert (Hp : p < length uds) by (rewrite HL; by eapply lookup_lt_Some).
      destruct (lookup_lt_is_Some_2 _ _ Hp) as [t Ht].
      destruct (ud_add_spec ra t key) as [He Hx]; [intros l ->; by eapply Hc|].
      destruct (IH k' (<[p := fst (ud_add cap ra t key)]> uds)) as (uds' & E & L & Hd); [done|by rewrite insert_length| |].
      { intros q l Hq. destruct (decide (q = p)) as [->|Hqp].
        - rewrite list_lookup_insert in Hq by done. injection Hq as Hq. by apply He.
        - rewrite list_lookup_insert_ne in Hq by done. by eapply Hc. }
      exists uds'. split; [|split; [by rewrite L, insert_length|]].
      + eapply evals_S; [|exact E]. intros m. cbn [add_up]. rewrite decide_False by done. cbn. rewrite Hn. cbn. rewrite Ht. done.
      + intros q tq Hq. destruct (decide (q = p)) as [->|Hqp].
        * assert (tq = t) as -> by congruence. destruct (Hd p (fst (ud_add cap ra t key))) as (s' & H1 & H2 & _ & _); [by rewrite list_lookup_insert|].
          exists s'. split; [done|]. split; [by eapply ext_trans|]. split.
          -- intros _. destruct Hx as (j & Hj & Ej). destruct H2 as (_ & H2 & _). destruct (H2 j Hj) as (j2 & Hj2 & Ej2). exists j2. split; [done|congruence].
          -- intros Hnot. exfalso. apply Hnot. left.
        * destruct (Hd q tq) as (s' & H1 & H2 & H3 & H4); [by rewrite list_lookup_insert_ne|].
          exists s'. split; [done|]. split; [done|]. split.
          -- intros Hin. apply H3. apply elem_of_cons in Hin as [->|Hin]; done.
          -- intros Hnot. apply H4. intros Hin. apply Hnot. by right.
  Qed.

  (** A node has a record for a union. *)
  Definition has (st : ustate) (p x : nat) : Prop :=
    exists s i r, s_uds st !! p = Some s /\ i ∈ elems s /\ s_ra st !! i = Some r /\ r_union r = x.

  Record Inv (st : ustate) : Prop := {
    i_len : length (s_uds st) = length (s_nodes st);
    i_sound : forall p s i, s_uds st !! p = Some s -> i ∈ elems s ->
      exists r u, s_ra st !! i = Some r /\ f_type (ufds (r_union r)) = Some u /\ known (f_meta (ufds (r_union r))) = true /\
        resolves (s_nodes st) u (f_meta (ufds (r_union r))) (Some p) (r_member r);
    i_comp : forall p n x q, s_nodes st !! p = Some n -> has st p x -> disc_at field n (f_meta (ufds x)) = None -> n_parent n = Some q -> has st q x;
    i_up : forall p n, s_nodes st !! p = Some n -> exists k, upn (s_nodes st) k (Some p);
    i_cap : forall p l, s_uds st !! p = Some (Small l) -> length l <= cap;
    i_all : forall i, i ∈ s_all st <-> i < length (s_ra st);
    i_nodup : NoDup (s_ra st)
  }.

  (** The search. *)
  Definition found_by (st : ustate) (x : nat) (u : udesc) (s : option nat) (v : option nat * option nat * option nat) : Prop :=
    exists ps, walk (s_nodes st) ps s v.1.1 /\
      (forall p, p ∈ ps -> ~ has st p x /\ exists n, s_nodes st !! p = Some n /\ disc_at field n (f_meta (ufds x)) = None) /\
      match v with
      | (Some p, Some i, None) => exists t r, s_uds st !! p = Some t /\ i ∈ elems t /\ s_ra st !! i = Some r /\ r_union r = x
      | (Some p, None, m) => ~ has st p x /\ exists n f, s_nodes st !! p = Some n /\ disc_at field n (f_meta (ufds x)) = Some f /\ m = choose u f (n_addr n + d_off f)%Z
      | (None, None, None) => True
      | _ => False
      end.
  Lemma climb_spec st x u k s : Inv st -> upn (s_nodes st) k s ->
    exists v, evals (fun fuel => climb field choose fuel st (s_ra st ++ [Urec x None]) u (f_meta (ufds x)) (length (s_ra st)) s) v /\ found_by st x u s v.
  Proof.
    intros I. induction 1 as [|k p n Hn Hk IH].
    - exists (None, None, None). split; [by eapply evals_S, evals_ret|]. exists []. split; [constructor|]. split; [|done].
      intros p Hp. by apply elem_of_nil in Hp.
    - assert (Hp : p < length (s_uds st)) by (rewrite (i_len st I); by eapply lookup_lt_Some).
      destruct (lookup_lt_is_Some_2 _ _ Hp) as [t Ht].
      assert (Key : (s_ra st ++ [Urec x None]) !! length (s_ra st) = Some (Urec x None)).
      { rewrite lookup_app_r by lia. by rewrite Nat.sub_diag. }
      destruct (ud_find (s_ra st ++ [Urec x None]) t (length (s_ra st))) as [i|] eqn:Ef.
      + exists (Some p, Some i, None). split.
        * exists 1. intros [|m] Hm; [lia|]. cbn. rewrite Hn. cbn. rewrite Ht. cbn. by rewrite Ef.
        * exists []. split; [constructor|]. split; [intros q Hq; by apply elem_of_nil in Hq|].
          apply set_find_some in Ef as [Ei Eu]. apply same_union_true in Eu. destruct (i_sound st I p t i Ht Ei) as (r & u' & Hr & _).
          exists t, r. split; [done|]. split; [done|]. split; [done|]. rewrite Key, lookup_app_l in Eu by (by eapply lookup_lt_Some).
          rewrite Hr in Eu. cbn in Eu. congruence.
      + assert (Nh : ~ has st p x).
        { intros (t' & i & r & Ht' & Hi & Hr & Hx). assert (t' = t) as -> by congruence.
          pose proof (set_find_none _ _ _ Ef i Hi) as E. unfold same_union in E. apply bool_decide_eq_false in E. apply E.
          rewrite Key, lookup_app_l by (by eapply lookup_lt_Some). rewrite Hr. cbn. congruence. }
        destruct (disc_at field n (f_meta (ufds x))) as [f|] eqn:Ed.
        * exists (Some p, None, choose u f (n_addr n + d_off f)%Z). split.
          -- exists 1. intros [|m] Hm; [lia|]. cbn. rewrite Hn. cbn. rewrite Ht. cbn. rewrite Ef.
             unfold disc_at in Ed. destruct (n_skip n); [done|]. destruct (n_td n) as [t'|]; [|done]. cbn. by rewrite Ed.
          -- exists []. split; [constructor|]. split; [intros q Hq; by apply elem_of_nil in Hq|]. split; [done|]. by exists n, f.
        * destruct IH as (v & E & ps & Hw & Hps & Hv). exists v. split.
          -- eapply evals_S; [|exact E]. intros m. cbn. rewrite Hn. cbn. rewrite Ht. cbn. rewrite Ef.
             unfold disc_at in Ed. destruct (n_skip n); [done|]. destruct (n_td n) as [t'|]; [|done]. cbn. by rewrite Ed.
          -- exists (p :: ps). split; [by econstructor|]. split; [|done].
             intros q Hq. apply elem_of_cons in Hq as [->|Hq]; [|by apply Hps]. split; [done|]. by exists n.
  Qed.

  Lemma walk_resolves nodes u meta ps s stop d : walk nodes ps s stop ->
    (forall p, p ∈ ps -> exists n, nodes !! p = Some n /\ disc_at field n meta = None) -> resolves nodes u meta stop d ->
    resolves nodes u meta s d /\ forall p, p ∈ ps -> resolves nodes u meta (Some p) d.
  Proof.
    induction 1 as [s|p n ps stop Hn Hw IH]; intros Hd Hr.
    - split; [done|]. intros p Hp. by apply elem_of_nil in Hp.
    - destruct IH as [I1 I2]; [intros q Hq; apply Hd; by right|done|].
      assert (H : resolves nodes u meta (Some p) d).
      { destruct (Hd p) as (n' & Hn' & Ed); [left|]. eapply Rs_up; [done|done|]. congruence. }
      split; [done|]. intros q Hq. apply elem_of_cons in Hq as [->|Hq]; [done|by apply I2].
  Qed.

  (** What one search does to the state. *)
  Definition grows (st st' : ustate) : Prop :=
    s_nodes st' = s_nodes st /\ (forall i r, s_ra st !! i = Some r -> s_ra st' !! i = Some r) /\ (forall p x, has st p x -> has st' p x).
  Lemma grows_ra st st' : grows st st' -> length (s_ra st) <= length (s_ra st').
  Proof.
    intros (_ & G & _). destruct (decide (length (s_ra st) <= length (s_ra st'))) as [|H]; [done|exfalso].
    assert (Hlt : length (s_ra st') < length (s_ra st)) by lia. destruct (lookup_lt_is_Some_2 _ _ Hlt) as [r Hr]. apply G, lookup_lt_Some in Hr. lia.
  Qed.
  Lemma grows_refl st : grows st st.
  Proof. by split. Qed.
  Lemma grows_trans a b c : grows a b -> grows b c -> grows a c.
  Proof. intros (A1 & A2 & A3) (B1 & B2 & B3). split; [congruence|]. split; auto. Qed.

  (** Recording a result on the nodes passed keeps the invariant. *)
  Lemma record_ok st x u ps s stop k ra key d uds' all :
    Inv st -> f_type (ufds x) = Some u -> known (f_meta (ufds x)) = true ->
    walk (s_nodes st) ps s stop -> upn (s_nodes st) k s ->
    (forall i r, s_ra st !! i = Some r -> ra !! i = Some r) -> ra !! key = Some (Urec x d) ->
    (forall p, p ∈ ps -> resolves (s_nodes st) u (f_meta (ufds x)) (Some p) d) ->
    (forall p, p ∈ ps -> ~ has st p x) ->
    (forall p n q, p ∈ ps -> s_nodes st !! p = Some n -> disc_at field n (f_meta (ufds x)) = None -> n_parent n = Some q -> q ∈ ps \/ has st q x) ->
    (forall i, i ∈ all <-> i < length ra) -> NoDup ra ->
    length uds' = length (s_uds st) ->
    (forall p t, s_uds st !! p = Some t -> exists t', uds' !! p = Some t' /\ ext ra key t t' /\
        (p ∈ ps -> exists j, j ∈ elems t' /\ r_union <$> ra !! j = r_union <$> ra !! key) /\ (p ∉ ps -> t' = t)) ->
    Inv (Ustate (s_nodes st) uds' ra all) /\ grows st (Ustate (s_nodes st) uds' ra all) /\
    (forall p, p ∈ ps -> has (Ustate (s_nodes st) uds' ra all) p x) /\
    (forall p t, has st p x -> s_uds st !! p = Some t -> uds' !! p = Some t).
  Proof.
    intros I Hu Hk Hw Hup Hra Hkey Hres Hnh Hpar Hall Hnd HL Hd. set (st' := Ustate (s_nodes st) uds' ra all).
    assert (Back : forall p t', uds' !! p = Some t' -> exists t, s_uds st !! p = Some t /\ ext ra key t t' /\
        (p ∈ ps -> exists j, j ∈ elems t' /\ r_union <$> ra !! j = r_union <$> ra !! key) /\ (p ∉ ps -> t' = t)).
    { intros p t' Hp. assert (p < length (s_uds st)) as Hlt by (rewrite <- HL; by eapply lookup_lt_Some).
      destruct (lookup_lt_is_Some_2 _ _ Hlt) as [t Ht]. destruct (Hd p t Ht) as (t2 & H2 & H3). exists t. split; [done|].
      assert (t2 = t') as -> by congruence. done. }
    assert (Hhas : forall p y, has st p y -> has st' p y).
    { intros p y (t & i & r & Ht & Hi & Hr & Hy). destruct (Hd p t Ht) as (t' & Ht' & (_ & He & _) & _).
      destruct (He i Hi) as (j & Hj & Ej). rewrite (Hra i r Hr) in Ej. destruct (ra !! j) as [rj|] eqn:Erj; [|done]. cbn in Ej.
      exists t', j, rj. split; [done|]. split; [done|]. split; [done|]. congruence. }
    assert (Hnew : forall p, p ∈ ps -> has st' p x).
    { intros p Hp. assert (exists n, s_nodes st !! p = Some n) as [n Hn].
      { clear -Hw Hp. induction Hw as [|q n ps stop Hn _ IH]; [by apply elem_of_nil in Hp|]. apply elem_of_cons in Hp as [->|Hp]; [by exists n|by apply IH]. }
      assert (Hlt : p < length (s_uds st)) by (rewrite (i_len st I); by eapply lookup_lt_Some).
      destruct (lookup_lt_is_Some_2 _ _ Hlt) as [t Ht]. destruct (Hd p t Ht) as (t' & Ht' & _ & He & _).
      destruct (He Hp) as (j & Hj & Ej). rewrite Hkey in Ej. destruct (ra !! j) as [rj|] eqn:Erj; [|done]. cbn in Ej.
      exists t', j, rj. split; [done|]. split; [done|]. split; [done|]. congruence. }
    assert (Hold : forall p y, has st' p y -> has st p y \/ (p ∈ ps /\ y = x)).
    { intros p y (t' & i & r & Ht' & Hi & Hr & Hy). cbn in Ht', Hr. destruct (Back p t' Ht') as (t & Ht & (He & _) & _ & Hout).
      destruct (He i Hi) as [Hi'|Hi'].
      - left. destruct (i_sound st I p t i Ht Hi') as (r' & u' & Hr' & _). exists t, i, r'. split; [done|]. split; [done|]. split; [done|].
        apply Hra in Hr'. congruence.
      - subst i. destruct (decide (p ∈ ps)) as [Hin|Hin].
        + right. split; [done|]. rewrite Hkey in Hr. injection Hr as <-. done.
        + left. rewrite (Hout Hin) in Hi. destruct (i_sound st I p t key Ht Hi) as (r' & u' & Hr' & _). exists t, key, r'.
          split; [done|]. split; [done|]. split; [done|]. apply Hra in Hr'. congruence. }
    split; [|split; [|split]].
    - constructor.
      + cbn. rewrite HL. apply I.
      + cbn. intros p t' i Ht' Hi. destruct (Back p t' Ht') as (t & Ht & (He & _) & _ & Hout).
        assert (i ∈ elems t \/ (i = key /\ p ∈ ps)) as [Hi'|[-> Hp]].
        { destruct (He i Hi) as [Hi'|Hi']; [by left|]. destruct (decide (p ∈ ps)) as [Hin|Hin]; [by right|]. left. by rewrite <- (Hout Hin). }
        * destruct (i_sound st I p t i Ht Hi') as (r & u' & Hr & H1 & H2 & H3). exists r, u'. split; [by apply Hra|]. done.
        * exists (Urec x d), u. split; [done|]. split; [done|]. split; [done|]. by apply Hres.
      + cbn. intros p n y q Hn Hh Hdn Hq. destruct (Hold p y Hh) as [Hh'|[Hp ->]].
        * apply Hhas. by eapply (i_comp st I).
        * destruct (Hpar p n q Hp Hn Hdn Hq) as [Hin|Hh']; [by apply Hnew|by apply Hhas].
      + cbn. apply I.
      + cbn. intros p l Hp. destruct (Back p _ Hp) as (t & Ht & (_ & _ & Hc) & _). by apply Hc.
      + done.
      + done.
    - split; [done|]. split; [done|done].
    - done.
    - intros p t Hh Ht. destruct (Hd p t Ht) as (t' & Ht' & _ & _ & Hout). rewrite Ht'. f_equal. apply Hout. intros Hp. by apply (Hnh p Hp).
  Qed.

  Lemma walk_parent nodes ps s stop p n q : walk nodes ps s stop -> p ∈ ps -> nodes !! p = Some n -> n_parent n = Some q -> q ∈ ps \/ stop = Some q.
  Proof.
    induction 1 as [|p' n' ps stop Hn Hw IH]; intros Hp Hpn Hq; [by apply elem_of_nil in Hp|].
    apply elem_of_cons in Hp as [->|Hp].
    - assert (n' = n) as -> by congruence. rewrite Hq in Hw. inversion Hw; subst; [by right|]. left. right. left.
    - destruct (IH Hp Hpn Hq) as [H|H]; [left; by right|by right].
  Qed.

  Lemma ud_ok st node x : Inv st -> node < length (s_nodes st) ->
    exists st' o, evals (fun fuel => union_discriminator cap bytes ufds known field choose fuel st node x) (st', o) /\
      Inv st' /\ grows st st' /\ (forall p t, has st p x -> s_uds st !! p = Some t -> s_uds st' !! p = Some t) /\
      (forall r, o = Member r -> member_of (s_nodes st) x node r /\
        (forall u, f_type (ufds x) = Some u -> known (f_meta (ufds x)) = true -> has st' node x)) /\
      (o = TooMany -> (2 ^ (8 * (bytes - 1)) <= Z.of_nat (length (s_ra st)) / 256)%Z).
  Proof.
    intros I Hnode. unfold union_discriminator, UnionResSpec.member_of. destruct (f_type (ufds x)) as [u|] eqn:Hu.
    2:{ exists st, (Member None). split; [apply evals_ret|]. split; [done|]. split; [apply grows_refl|]. split; [done|]. split; [|done]. intros r [= <-]. split; [done|done]. }
    assert (Dflt : by_name u None = Some 0).
    { unfold by_name, first_field. pose proof (members x u Hu). by destruct (u_names u). }
    destruct (known (f_meta (ufds x))) eqn:Hk.
    2:{ exists st, (Member (by_name u None)). split; [apply evals_ret|]. split; [done|]. split; [apply grows_refl|]. split; [done|]. split; [|done]. intros r [= <-]. split; [done|]. done. }
    destruct (2 ^ (8 * (bytes - 1)) <=? Z.of_nat (length (s_ra st)) / 256)%Z eqn:Elim.
    { exists st, TooMany. split; [apply evals_ret|]. split; [done|]. split; [apply grows_refl|]. split; [done|]. split; [done|]. intros _. by apply Z.leb_le in Elim. }
    destruct (lookup_lt_is_Some_2 _ _ Hnode) as [nd Hnd]. destruct (i_up st I node nd Hnd) as [k Hup].
    destruct (climb_spec st x u k (Some node) I Hup) as ([[stop found] fdp] & Ev & ps & Hw & Hps & Hv). cbn in Hw.
    destruct found as [i|].
    - (* a record was found *)
      destruct stop as [p|]; [|done]. destruct fdp; [done|]. destruct Hv as (t & r & Ht & Hi & Hr & Hx).
      destruct (i_sound st I p t i Ht Hi) as (r' & u' & Hr' & Hu' & Hk' & Hres). assert (r' = r) as -> by congruence.
      rewrite Hx in *. assert (u' = u) as -> by congruence.
      destruct (add_up_spec (s_nodes st) (s_ra st) i ps (Some node) (Some p) k (s_uds st) Hw Hup (i_len st I) (i_cap st I)) as (uds' & Ea & HL & Hd).
      destruct (walk_resolves (s_nodes st) u (f_meta (ufds x)) ps (Some node) (Some p) (r_member r) Hw) as [R1 R2]; [intros q Hq; by apply Hps|done|].
      assert (Hp : has st p x) by (exists t, i, r; done).
      destruct (record_ok st x u ps (Some node) (Some p) k (s_ra st) i (r_member r) uds' (s_all st)) as (I' & G & Hin & Hsame); try done.
      { rewrite Hr, <- Hx. by destruct r. }
      { intros q Hq. by apply Hps. }
      { intros q n q' Hq Hn _ Hq'. destruct (walk_parent _ _ _ _ _ _ _ Hw Hq Hn Hq') as [?|[= ->]]; [by left|by right]. }
      { apply I. }
      { apply I. }
      exists (Ustate (s_nodes st) uds' (s_ra st) (s_all st)), (Member (r_member r)). split; [|split; [done|split; [done|split; [done|]]]].
      + eapply evals_bind; [exact Ev|]. cbn. rewrite Hr. cbn. eapply (evals_bind _ (fun uds _ => Some (Ustate (s_nodes st) uds (s_ra st) (s_all st), Member (r_member r)))); [exact Ea|apply evals_ret].
      + split; [|done]. intros r0 [= <-]. split; [done|]. intros _ _ _. inversion Hw; subst; [|apply Hin; left].
        destruct G as (_ & _ & G). by apply G.
    - (* no record *)
      set (m := match fdp with Some m => Some m | None => by_name u None end).
      set (ra := s_ra st ++ [Urec x m]).
      destruct (set_add (same_rec ra) (s_all st) (length (s_ra st))) as [all i] eqn:Es.
      apply set_add_spec in Es as Es'. destruct Es' as (A1 & A2 & A3 & A4).
      set (kept := if i =? length (s_ra st) then ra else s_ra st).
      assert (Key : ra !! length (s_ra st) = Some (Urec x m)).
      { unfold ra. rewrite lookup_app_r by lia. by rewrite Nat.sub_diag. }
      assert (Hkept : forall j r, s_ra st !! j = Some r -> kept !! j = Some r).
      { intros j r Hj. unfold kept. destruct (_ =? _); [|done]. unfold ra. rewrite lookup_app_l by (by eapply lookup_lt_Some). done. }
      assert (Hikey : kept !! i = Some (Urec x m)).
      { unfold kept. destruct A2 as [->|[Hin Hsame]]; [by rewrite Nat.eqb_refl|].
        pose proof (proj1 (i_all st I i) Hin) as Hlt. replace (i =? length (s_ra st)) with false by (symmetry; apply Nat.eqb_neq; lia).
        unfold same_rec in Hsame. apply andb_true_iff in Hsame as [E1 E2]. apply bool_decide_eq_true in E1, E2. rewrite Key in E1, E2.
        unfold ra in E1, E2. rewrite lookup_app_l in E1, E2 by done. destruct (s_ra st !! i) as [[ru rm]|]; [|done]. cbn in E1, E2. congruence. }
      assert (Hall : (forall j, j ∈ all <-> j < length kept) /\ NoDup kept).
      { unfold set_add in Es. destruct (set_find (same_rec ra) (s_all st) (length (s_ra st))) as [y|] eqn:Ey; injection Es as <- <-.
        - unfold kept. apply set_find_some in Ey as [Ey _]. apply (i_all st I) in Ey.
          replace (y =? length (s_ra st)) with false by (symmetry; apply Nat.eqb_neq; lia). split; apply I.
        - unfold kept. rewrite Nat.eqb_refl. split.
          + intros j. unfold ra. rewrite app_length. cbn. rewrite elem_of_app, elem_of_list_singleton, (i_all st I j). lia.
          + unfold ra. apply NoDup_app. split; [apply I|]. split; [|apply NoDup_singleton].
            intros rec Hrec Hnew. apply elem_of_list_singleton in Hnew. subst rec. apply elem_of_list_lookup in Hrec as [j Hj].
            assert (Hj' : j ∈ s_all st) by (apply (i_all st I); by eapply lookup_lt_Some).
            pose proof (set_find_none _ _ _ Ey j Hj') as F. unfold same_rec in F.
            rewrite Key in F. unfold ra in F. rewrite lookup_app_l in F by (by eapply lookup_lt_Some). rewrite Hj in F.
            rewrite !bool_decide_true in F by done. done. }
      destruct Hall as [Hall Hnd'].
      assert (Agree : forall p t j, s_uds st !! p = Some t -> j ∈ elems t \/ j = i -> ra !! j = kept !! j).
      { intros p t j Ht Hj. unfold kept. destruct (i =? length (s_ra st)) eqn:E; [done|]. apply Nat.eqb_neq in E. unfold ra. apply lookup_app_l.
        destruct Hj as [Hj|Hj].
        - destruct (i_sound st I p t j Ht Hj) as (r & _ & Hr & _). by eapply lookup_lt_Some.
        - subst j. destruct A2 as [A2|[A2 _]]; [done|]. by apply (i_all st I). }
      assert (Go : forall ps' stop' , walk (s_nodes st) ps' (Some node) stop' ->
        (stop' = match stop with None => None | Some p => s_nodes st !! p ≫= n_parent end) ->
        (exists q, q ∈ ps' /\ q = node) ->
        (forall p, p ∈ ps' -> resolves (s_nodes st) u (f_meta (ufds x)) (Some p) m) ->
        (forall p, p ∈ ps' -> ~ has st p x) ->
        (forall p n q, p ∈ ps' -> s_nodes st !! p = Some n -> disc_at field n (f_meta (ufds x)) = None -> n_parent n = Some q -> q ∈ ps' \/ has st q x) ->
        (forall p, stop = Some p -> is_Some (s_nodes st !! p)) ->
        exists st' o, evals (fun fuel => '(parent, found, fdp) ← climb field choose fuel st (s_ra st ++ [Urec x None]) u (f_meta (ufds x)) (length (s_ra st)) (Some node);
          match found with
          | Some i =>
            r ← s_ra st !! i;
            uds ← add_up cap fuel (s_nodes st) (s_ra st) (s_uds st) (Some node) parent i;
            Some (Ustate (s_nodes st) uds (s_ra st) (s_all st), Member (r_member r))
          | None =>
            let fdp := match fdp with Some m => Some m | None => by_name u None end in
            let ra := s_ra st ++ [Urec x fdp] in
            let (all, i) := set_add (same_rec ra) (s_all st) (length (s_ra st)) in
            let kept := if i =? length (s_ra st) then ra else s_ra st in
            stop ← match parent with None => Some None | Some p => n ← s_nodes st !! p; Some (n_parent n) end;
            uds ← add_up cap fuel (s_nodes st) ra (s_uds st) (Some node) stop i;
            Some (Ustate (s_nodes st) uds kept all, Member fdp)
          end) (st', o) /\
          Inv st' /\ grows st st' /\ (forall p t, has st p x -> s_uds st !! p = Some t -> s_uds st' !! p = Some t) /\
          (forall r, o = Member r -> resolves (s_nodes st) u (f_meta (ufds x)) (Some node) r /\
            (forall u0, Some u = Some u0 -> true = true -> has st' node x)) /\
          (o = TooMany -> (2 ^ (8 * (bytes - 1)) <= Z.of_nat (length (s_ra st)) / 256)%Z)).
      { intros ps' stop' Hw' Hstop (q0 & Hq0 & ->) Hres Hnh Hpar Hin.
        destruct (add_up_spec (s_nodes st) ra i ps' (Some node) stop' k (s_uds st) Hw' Hup (i_len st I) (i_cap st I)) as (uds' & Ea & HL & Hd).
        destruct (record_ok st x u ps' (Some node) stop' k kept i m uds' all) as (I' & G & Hnew & Hsame); try done.
        { intros p t Ht. destruct (Hd p t Ht) as (t' & Ht' & (X1 & X2 & X3) & X4 & X5). exists t'. split; [done|].
          assert (AG : forall j, j ∈ elems t' -> ra !! j = kept !! j) by (intros j Hj; eapply Agree; [done|by apply X1]).
          split; [|split; [|done]].
          - split; [done|]. split; [|done]. intros j Hj. destruct (X2 j Hj) as (j2 & Hj2 & Ej2). exists j2. split; [done|].
            rewrite <- (AG j2 Hj2), <- (Agree p t j Ht) by auto. done.
          - intros Hp. destruct (X4 Hp) as (j & Hj & Ej). exists j. split; [done|]. rewrite <- (AG j Hj), <- (Agree p t i Ht) by auto. done. }
        exists (Ustate (s_nodes st) uds' kept all), (Member m). split; [|split; [done|split; [done|split; [done|]]]].
        - eapply evals_bind; [exact Ev|]. cbv beta iota zeta. fold m. fold ra. rewrite Es. fold kept.
          apply (evals_ext (fun fuel => uds ← add_up cap fuel (s_nodes st) ra (s_uds st) (Some node) stop' i; Some (Ustate (s_nodes st) uds kept all, Member m))).
          + intros fuel. rewrite Hstop. destruct stop as [p|]; [|done]. destruct (Hin p eq_refl) as [n Hn]. rewrite Hn. done.
          + eapply (evals_bind _ (fun uds _ => Some (Ustate (s_nodes st) uds kept all, Member m))); [exact Ea|apply evals_ret].
        - split; [|done]. intros r [= <-]. split; [by apply Hres|]. intros _ _ _. by apply Hnew. }
      destruct stop as [p|].
      + destruct Hv as (Hnh & n & f & Hn & Hdn & ->).
        assert (Em : m = choose u f (n_addr n + d_off f)%Z).
        { unfold m. pose proof (chosen u f (n_addr n + d_off f)%Z (members x u Hu)). by destruct (choose u f _). }
        assert (Hhere : resolves (s_nodes st) u (f_meta (ufds x)) (Some p) m) by (rewrite Em; by eapply Rs_here).
        destruct (walk_resolves (s_nodes st) u (f_meta (ufds x)) ps (Some node) (Some p) m Hw) as [R1 R2]; [intros q Hq; by apply Hps|done|].
        apply (Go (ps ++ [p]) (n_parent n)).
        * by apply walk_last.
        * by rewrite Hn.
        * exists node. split; [|done]. inversion Hw; subst; [apply elem_of_list_singleton; done|]. left.
        * intros q Hq. apply elem_of_app in Hq as [Hq|Hq]; [by apply R2|]. apply elem_of_list_singleton in Hq. by subst.
        * intros q Hq. apply elem_of_app in Hq as [Hq|Hq]; [by apply Hps|]. apply elem_of_list_singleton in Hq. by subst.
        * intros q n' q' Hq Hn' Hd' Hq'. left. apply elem_of_app in Hq as [Hq|Hq].
          -- apply elem_of_app. destruct (walk_parent _ _ _ _ _ _ _ Hw Hq Hn' Hq') as [?|[= ->]]; [by left|]. right. by apply elem_of_list_singleton.
          -- apply elem_of_list_singleton in Hq. subst. congruence.
        * intros q [= <-]. by exists n.
      + destruct fdp as [|]; [done|]. assert (Em : m = Some 0) by done.
        destruct (walk_resolves (s_nodes st) u (f_meta (ufds x)) ps (Some node) None m Hw) as [R1 R2]; [intros q Hq; by apply Hps|rewrite Em; constructor|].
        apply (Go ps None); try done.
        * exists node. split; [|done]. inversion Hw; subst. left.
        * intros q Hq. by apply Hps.
        * intros q n' q' Hq Hn' Hd' Hq'. left. destruct (walk_parent _ _ _ _ _ _ _ Hw Hq Hn' Hq') as [?|?]; done.
  Qed.

  (** Checking the records of a node against a new parent. *)
  Lemma check_all_ok st parent ref n s i k : Inv st -> parent < length (s_nodes st) -> s_nodes st !! ref = Some n -> n_skip n = false ->
    s_uds st !! ref = Some s -> i + k = length (elems s) ->
    exists st' ok, evals (fun fuel => check_all cap bytes ufds known field choose fuel st parent ref (match s with Coll _ => true | Small _ => false end) i k) (st', ok) /\
      Inv st' /\ grows st st' /\ s_uds st' !! ref = Some s /\
      (ok = true -> forall j key r u, i <= j -> elems s !! j = Some key -> s_ra st !! key = Some r -> f_type (ufds (r_union r)) = Some u ->
        disc_at field n (f_meta (ufds (r_union r))) <> None \/
        (resolves (s_nodes st) u (f_meta (ufds (r_union r))) (Some parent) (r_member r) /\ has st' parent (r_union r))).
  Proof.
    revert st i. induction k as [|k IH]; intros st i I Hp Hn Hs Hset Hik.
    - exists st, true. split; [apply evals_ret|]. split; [done|]. split; [apply grows_refl|]. split; [done|].
      intros _ j key r u Hj Hkey. apply lookup_lt_Some in Hkey. lia.
    - assert (Hi : i < length (elems s)) by lia. destruct (lookup_lt_is_Some_2 _ _ Hi) as [key Hkey].
      assert (Hat : uds_at (match s with Coll _ => true | Small _ => false end) s i = Some key) by (by destruct s).
      assert (Hin : key ∈ elems s) by (by eapply elem_of_list_lookup_2).
      destruct (i_sound st I ref s key Hset Hin) as (r & u & Hr & Hu & Hk & Hres).
      assert (Hhas : has st ref (r_union r)) by (exists s, key, r; done).
      set (meta := f_meta (ufds (r_union r))) in *.
      assert (Ed : disc_at field n meta = t ← n_td n; field t meta).
      { unfold disc_at. rewrite Hs. by destruct (n_td n). }
      assert (C : exists st' ok, evals (fun fuel => check_ud cap bytes ufds known field choose fuel st parent ref key) (st', ok) /\
        Inv st' /\ grows st st' /\ s_uds st' !! ref = Some s /\
        (ok = true -> disc_at field n meta <> None \/ (resolves (s_nodes st) u meta (Some parent) (r_member r) /\ has st' parent (r_union r)))).
      { unfold check_ud. rewrite Hr. cbn. rewrite Hn. cbn. fold meta. rewrite <- Ed. destruct (disc_at field n meta) as [f|] eqn:Ef.
        - exists st, true. split; [apply evals_ret|]. split; [done|]. split; [apply grows_refl|]. split; [done|]. intros _. by left.
        - destruct (ud_ok st parent (r_union r) I Hp) as (st' & o & Ev & I' & G & Hsame & Hm & _).
          exists st', (bool_decide (match o with TooMany => None | Member m => m end = r_member r)).
          split.
          { eapply (evals_bind _ (fun x _ => Some (x.1, bool_decide (match x.2 with TooMany => None | Member m => m end = r_member r)))) in Ev; [|apply evals_ret].
            eapply evals_ext; [|exact Ev]. intros fuel. cbn beta.
            by destruct (union_discriminator cap bytes ufds known field choose fuel st parent (r_union r)) as [[]|]. }
          split; [done|]. split; [done|]. split; [by apply Hsame|]. intros Hok. apply bool_decide_eq_true in Hok. right.
          pose proof (resolves_some _ _ _ _ _ (members _ _ Hu) Hres) as Hsome. destruct o as [|m]; [congruence|]. destruct (Hm m eq_refl) as [Hm1 Hm2].
          unfold UnionResSpec.member_of in Hm1. rewrite Hu in Hm1. fold meta in Hm1. rewrite Hk in Hm1. split; [congruence|by apply (Hm2 u)]. }
      destruct C as (st1 & ok & Ev & I1 & G1 & Hs1 & Hok). destruct G1 as (Gn & Gr & Gh).
      destruct ok.
      + destruct (IH st1 (S i)) as (st2 & ok2 & Ev2 & I2 & G2 & Hs2 & Hok2); [done|by rewrite Gn|by rewrite Gn|done|done|lia|].
        exists st2, ok2. split; [|split; [done|split; [by eapply grows_trans|split; [done|]]]].
        * cbn [check_all]. rewrite Hset. cbn [mbind option_bind]. rewrite Hat. cbn [mbind option_bind].
          eapply (evals_bind _ (fun x fuel => if x.2 : bool then check_all cap bytes ufds known field choose fuel x.1 parent ref (match s with Coll _ => true | Small _ => false end) (S i) k else Some (x.1, false))) in Ev; [|exact Ev2].
          eapply evals_ext; [|exact Ev]. intros fuel. cbn beta. by destruct (check_ud cap bytes ufds known field choose fuel st parent ref key) as [[]|].
        * intros E j key' r' u' Hj Hkey' Hr' Hu'. destruct (decide (j = i)) as [->|Hne].
          -- assert (key' = key) as -> by congruence. assert (r' = r) as -> by congruence. assert (u' = u) as -> by congruence. fold meta.
             destruct (Hok eq_refl) as [H|[H1 H2]]; [by left|]. right. split; [done|]. destruct G2 as (_ & _ & G2). by apply G2.
          -- destruct (Hok2 E j key' r' u') as [H|[H1 H2]]; [lia|done|by apply Gr|done|by left|]. right. split; [by rewrite <- Gn|done].
      + exists st1, false. split; [|split; [done|split; [done|split; [done|done]]]].
        cbn [check_all]. rewrite Hset. cbn [mbind option_bind]. rewrite Hat. cbn [mbind option_bind].
        eapply (evals_bind _ (fun x fuel => if x.2 : bool then check_all cap bytes ufds known field choose fuel x.1 parent ref (match s with Coll _ => true | Small _ => false end) (S i) k else Some (x.1, false))) in Ev; [|apply evals_ret].
        eapply evals_ext; [|exact Ev]. intros fuel. cbn beta. by destruct (check_ud cap bytes ufds known field choose fuel st parent ref key) as [[]|].
  Qed.

  (** Chains that do not meet a node. *)
  Inductive avoids (nodes : list unode) (ref : nat) : option nat -> Prop :=
    | av_root : avoids nodes ref None
    | av_up p n : p <> ref -> nodes !! p = Some n -> avoids nodes ref (n_parent n) -> avoids nodes ref (Some p).
  Lemma ref_is_parent_ok nodes ref k s : upn nodes k s ->
    exists b, evals (fun fuel => ref_is_parent fuel nodes s ref) b /\ (b = false -> avoids nodes ref s).
  Proof.
    induction 1 as [|k p n Hn _ IH].
    - exists false. split; [by eapply evals_S, evals_ret|]. intros _. constructor.
    - destruct (decide (p = ref)) as [->|Hne].
      + exists true. split; [|done]. exists 1. intros [|m] Hm; [lia|]. cbn. by rewrite Nat.eqb_refl.
      + destruct IH as (b & Ev & Hb). exists b. split.
        * eapply evals_S; [|exact Ev]. intros m. cbn. replace (p =? ref) with false by (symmetry; by apply Nat.eqb_neq). by rewrite Hn.
        * intros E. econstructor; [done|done|by apply Hb].
  Qed.

  Lemma set_parent_ne nodes parent ref p : p <> ref -> set_parent nodes parent ref !! p = nodes !! p.
  Proof. intros H. unfold set_parent. by rewrite list_lookup_alter_ne. Qed.
  Lemma set_parent_eq nodes parent ref n : nodes !! ref = Some n ->
    set_parent nodes parent ref !! ref = Some (Unode (Some parent) (n_skip n) (n_td n) (n_addr n)).
  Proof. intros H. unfold set_parent. rewrite list_lookup_alter, H. done. Qed.
  Lemma avoids_upn nodes parent ref s k : avoids nodes ref s -> upn nodes k s -> upn (set_parent nodes parent ref) k s.
  Proof.
    intros H. revert k. induction H as [|p n Hp Hn _ IH]; intros k Hk; inversion Hk; subst; [constructor|].
    assert (n0 = n) as -> by congruence. econstructor; [by rewrite set_parent_ne|]. by apply IH.
  Qed.
  Lemma avoids_resolves nodes parent ref u meta s r : avoids nodes ref s -> resolves nodes u meta s r -> resolves (set_parent nodes parent ref) u meta s r.
  Proof.
    induction 1 as [|p n Hp Hn _ IH]; intros Hr; inversion Hr; subst; [constructor|eapply Rs_here; [by rewrite set_parent_ne|done]|].
    eapply Rs_up; [by rewrite set_parent_ne|congruence|]. assert (n0 = n) as -> by congruence. by apply IH.
  Qed.

  Lemma move_ok st parent ref n s : Inv st -> parent < length (s_nodes st) -> s_nodes st !! ref = Some n ->
    s_uds st !! ref = Some s -> avoids (s_nodes st) ref (Some parent) ->
    (forall key r u, key ∈ elems s -> s_ra st !! key = Some r -> f_type (ufds (r_union r)) = Some u ->
        disc_at field n (f_meta (ufds (r_union r))) <> None \/
        (resolves (s_nodes st) u (f_meta (ufds (r_union r))) (Some parent) (r_member r) /\ has st parent (r_union r))) ->
    Inv (Ustate (set_parent (s_nodes st) parent ref) (s_uds st) (s_ra st) (s_all st)) /\
    (forall p x u r, has st p x -> f_type (ufds x) = Some u -> resolves (s_nodes st) u (f_meta (ufds x)) (Some p) r ->
       resolves (set_parent (s_nodes st) parent ref) u (f_meta (ufds x)) (Some p) r).
  Proof.
    intros I Hp Hn Hs Hav Hchk. set (nodes' := set_parent (s_nodes st) parent ref).
    assert (Hset : forall p m', nodes' !! p = Some m' -> exists m, s_nodes st !! p = Some m /\ (forall meta, disc_at field m' meta = disc_at field m meta) /\
      n_addr m' = n_addr m /\ n_parent m' = if decide (p = ref) then Some parent else n_parent m).
    { intros p m' Hm'. destruct (decide (p = ref)) as [->|Hne].
      - unfold nodes' in Hm'. rewrite (set_parent_eq _ _ _ n Hn) in Hm'. injection Hm' as <-. exists n. done.
      - unfold nodes' in Hm'. rewrite set_parent_ne in Hm' by done. exists m'. done. }
    assert (Hres : forall p x u r, has st p x -> f_type (ufds x) = Some u -> resolves (s_nodes st) u (f_meta (ufds x)) (Some p) r ->
       resolves nodes' u (f_meta (ufds x)) (Some p) r).
    { intros p x u r Hh Hu Hr. remember (Some p) as sp eqn:Esp. revert p Esp Hh.
      induction Hr as [|q m f Hq Hf|q m r Hq Hd Hr IH]; intros p Esp Hh; [done| |]; injection Esp as <-.
      - destruct (decide (q = ref)) as [->|Hne].
        + assert (m = n) as -> by congruence.
          apply (Rs_here _ _ _ _ _ _ (Unode (Some parent) (n_skip n) (n_td n) (n_addr n)) f); [by apply set_parent_eq|done].
        + eapply Rs_here; [|done]. unfold nodes'. by rewrite set_parent_ne.
      - destruct (decide (q = ref)) as [->|Hne].
        + assert (m = n) as -> by congruence. destruct Hh as (s' & i & ri & Hs' & Hi & Hri & Hx). assert (s' = s) as -> by congruence.
          destruct (i_sound st I ref s i Hs Hi) as (r2 & u2 & Hr2 & Hu2 & _ & Hres2). assert (r2 = ri) as -> by congruence.
          rewrite Hx in *. assert (u2 = u) as -> by congruence.
          assert (r_member ri = r) as <- by (eapply resolves_det; [exact Hres2|by eapply Rs_up]).
          specialize (Hchk i ri u Hi Hri). rewrite Hx in Hchk. destruct (Hchk Hu) as [H|[H _]]; [done|].
          eapply Rs_up; [by apply set_parent_eq|done|]. cbn. by apply avoids_resolves.
        + eapply Rs_up; [unfold nodes'; by rewrite set_parent_ne|done|].
          destruct (n_parent m) as [q'|] eqn:Eq; [|inversion Hr; constructor].
          apply (IH q' eq_refl). by eapply (i_comp st I). }
    split; [|done]. constructor; cbn.
    - unfold nodes', set_parent. rewrite alter_length. apply I.
    - intros p t i Ht Hi. destruct (i_sound st I p t i Ht Hi) as (r & u & Hr & Hu & Hk & Hrs). exists r, u.
      split; [done|]. split; [done|]. split; [done|]. apply Hres; [|done|done]. by exists t, i, r.
    - intros p m' x q Hm' Hh Hd Hq. destruct (Hset p m' Hm') as (m & Hm & Hdm & _ & Hpm). rewrite Hdm in Hd. rewrite Hpm in Hq.
      destruct (decide (p = ref)) as [->|Hne].
      + injection Hq as <-. assert (m = n) as -> by congruence. destruct Hh as (s' & i & ri & Hs' & Hi & Hri & Hx). cbn in Hs', Hri.
        assert (s' = s) as -> by congruence. destruct (i_sound st I ref s i Hs Hi) as (r2 & u2 & Hr2 & Hu2 & _). assert (r2 = ri) as -> by congruence.
        destruct (Hchk i ri u2 Hi Hri Hu2) as [H|[_ H]]; [by rewrite Hx in H|]. by rewrite Hx in H.
      + exact (i_comp st I p m x q Hm Hh Hd Hq).
    - intros p m' Hm'. destruct (Hset p m' Hm') as (m & Hm & _). destruct (i_up st I p m Hm) as [k Hk].
      destruct (lookup_lt_is_Some_2 _ _ Hp) as [np Hnp]. destruct (i_up st I parent np Hnp) as [kp Hkp].
      pose proof (avoids_upn _ parent _ _ _ Hav Hkp) as Hkp'. clear m' Hm' m Hm. fold nodes' in Hkp'.
      remember (Some p) as sp eqn:E. clear E. induction Hk as [|k q m Hm Hk IH]; [exists 0; constructor|].
      destruct (decide (q = ref)) as [->|Hne].
      + exists (S kp). econstructor; [by apply set_parent_eq|done].
      + destruct IH as [k' Hk']. exists (S k'). econstructor; [unfold nodes'; by rewrite set_parent_ne|done].
    - apply I.
    - apply I.
    - apply I.
  Qed.

  (** A result that stays right. *)
  Definition tracked (st : ustate) (p x : nat) (r : option nat) : Prop :=
    member_of (s_nodes st) x p r /\ (forall u, f_type (ufds x) = Some u -> known (f_meta (ufds x)) = true -> has st p x).
  Lemma tracked_grows st st' p x r : grows st st' -> tracked st p x r -> tracked st' p x r.
  Proof. intros (G1 & _ & G3) [T1 T2]. split; [by rewrite G1|]. intros u H1 H2. apply G3. by eapply T2. Qed.

  Lemma match_ok st parent ref n : Inv st -> parent < length (s_nodes st) -> s_nodes st !! ref = Some n -> n_skip n = false ->
    exists st' b, evals (fun fuel => match_node cap bytes ufds known field choose fuel st parent ref []) (st', b) /\ Inv st' /\
      n_skip <$> s_nodes st' = n_skip <$> s_nodes st /\ (forall p x r, tracked st p x r -> tracked st' p x r) /\
      length (s_ra st) <= length (s_ra st').
  Proof.
    intros I Hp Hn Hs. assert (Hlt : ref < length (s_uds st)) by (rewrite (i_len st I); by eapply lookup_lt_Some).
    destruct (lookup_lt_is_Some_2 _ _ Hlt) as [s Hset].
    destruct (check_all_ok st parent ref n s 0 (length (elems s)) I Hp Hn Hs Hset) as (st1 & ok & Ev & I1 & G & Hset1 & Hok); [done|].
    unfold match_node. rewrite Hset. cbn [mbind option_bind].
    assert (G' := G). destruct G as (Gn & Gr & Gh).
    set (cont := fun (x : ustate * bool) fuel => if x.2 : bool then
      below ← ref_is_parent fuel (s_nodes x.1) (Some parent) ref;
      if (below : bool) then Some (x.1, false)
      else Some (Ustate (set_parent (s_nodes x.1) parent ref) (s_uds x.1) (s_ra x.1) (s_all x.1), true) else Some (x.1, false)).
    assert (Bind : forall v, evals (cont (st1, ok)) v -> evals (fun fuel =>
      '(st0, ok0) ← check_all cap bytes ufds known field choose fuel st parent ref (match s with Coll _ => true | Small _ => false end) 0 (length (elems s));
      if (ok0 : bool) then
        below ← ref_is_parent fuel (s_nodes st0) (Some parent) ref;
        if (below : bool) then Some (st0, false)
        else Some (Ustate (fold_left (fun nodes x => set_parent nodes parent x) [ref] (s_nodes st0)) (s_uds st0) (s_ra st0) (s_all st0), true)
      else Some (st0, false)) v).
    { intros v Hv. eapply (evals_bind _ cont) in Hv; [|exact Ev]. eapply evals_ext; [|exact Hv]. intros fuel. cbn beta.
      destruct (check_all cap bytes ufds known field choose fuel st parent ref _ 0 (length (elems s))) as [[]|]; done. }
    destruct ok.
    2:{ exists st1, false. split; [apply Bind; apply evals_ret|]. split; [done|]. split; [by rewrite Gn|]. split; [|by apply grows_ra]. intros p x r. by apply tracked_grows. }
    destruct (lookup_lt_is_Some_2 _ _ Hp) as [np Hnp]. destruct (i_up st I parent np Hnp) as [kp Hkp].
    destruct (ref_is_parent_ok (s_nodes st1) ref kp (Some parent)) as (b & Eb & Hb); [by rewrite Gn|].
    destruct b.
    - exists st1, false. split; [apply Bind; unfold cont; cbn [fst snd]; eapply (evals_bind _ (fun (below : bool) _ => if below then Some (st1, false) else _)); [exact Eb|apply evals_ret]|].
      split; [done|]. split; [by rewrite Gn|]. split; [|by apply grows_ra]. intros p x r. by apply tracked_grows.
    - destruct (move_ok st1 parent ref n s I1) as [I2 Hres]; [by rewrite Gn|by rewrite Gn|done|by apply Hb| |].
      { intros key r u Hkey Hr Hu. apply elem_of_list_lookup in Hkey as [j Hj].
        assert (Hr0 : s_ra st !! key = Some r).
        { destruct (i_sound st I ref s key Hset) as (r' & _ & Hr' & _); [by eapply elem_of_list_lookup_2|]. pose proof (Gr _ _ Hr'). congruence. }
        destruct (Hok eq_refl j key r u) as [H|[H1 H2]]; [lia|done|done|done|by left|]. right. split; [by rewrite Gn|done]. }
      eexists _, true. split; [apply Bind; unfold cont; cbn [fst snd]; eapply (evals_bind _ (fun (below : bool) _ => if below then Some (st1, false) else _)); [exact Eb|apply evals_ret]|].
      split; [exact I2|]. split; [|split; [|by apply grows_ra in G']].
      + cbn. rewrite <- Gn. unfold set_parent. clear. generalize (s_nodes st1) as l. intros l. revert ref. induction l as [|a l IH]; intros [|ref]; cbn; [done|done|done|]. by rewrite IH.
      + intros p x r T. apply (tracked_grows _ st1) in T; [|done]. destruct T as [T1 T2]. split; [|done]. cbn.
        unfold UnionResSpec.member_of in *. destruct (f_type (ufds x)) as [u|] eqn:Hu; [|done]. destruct (known (f_meta (ufds x))) eqn:Hk; [|done].
        apply Hres; [by eapply T2|done|done].
  Qed.

  Lemma resolves_app nodes l u meta s r : resolves nodes u meta s r -> resolves (nodes ++ l) u meta s r.
  Proof.
    induction 1 as [|p n f Hn Hf|p n r Hn Hd _ IH]; [constructor|eapply Rs_here; [by apply lookup_app_l_Some|done]|eapply Rs_up; [by apply lookup_app_l_Some|done|done]].
  Qed.
  Lemma upn_app nodes l k s : upn nodes k s -> upn (nodes ++ l) k s.
  Proof. induction 1 as [|k p n Hn _ IH]; [constructor|econstructor; [by apply lookup_app_l_Some|done]]. Qed.

  Lemma node_ok st parent skip td a : Inv st -> (forall q, parent = Some q -> q < length (s_nodes st)) ->
    let st' := Ustate (s_nodes st ++ [Unode parent skip td a]) (s_uds st ++ [Small []]) (s_ra st) (s_all st) in
    Inv st' /\ (forall p x r, tracked st p x r -> tracked st' p x r).
  Proof.
    intros I Hp st'.
    assert (Hup : forall p x, has st p x -> has st' p x).
    { intros p x (s & i & r & Hs & Hi & Hr & Hx). exists s, i, r. split; [by apply lookup_app_l_Some|done]. }
    assert (Hdown : forall p x, has st' p x -> has st p x).
    { intros p x (s & i & r & Hs & Hi & Hr & Hx). cbn in Hs, Hr. apply lookup_app_Some in Hs as [Hs|[_ Hs]].
      - by exists s, i, r.
      - apply list_lookup_singleton_Some in Hs as [_ <-]. by apply elem_of_nil in Hi. }
    split.
    - constructor; cbn.
      + rewrite !app_length. cbn. rewrite (i_len st I). done.
      + intros p s i Hs Hi. apply lookup_app_Some in Hs as [Hs|[_ Hs]].
        * destruct (i_sound st I p s i Hs Hi) as (r & u & Hr & Hu & Hk & Hres). exists r, u. split; [done|]. split; [done|]. split; [done|]. by apply resolves_app.
        * apply list_lookup_singleton_Some in Hs as [_ <-]. by apply elem_of_nil in Hi.
      + intros p n x q Hn Hh Hd Hq. apply Hdown in Hh. apply Hup. apply lookup_app_Some in Hn as [Hn|[Hge _]].
        * by eapply (i_comp st I).
        * destruct Hh as (s & i & r & Hs & _). apply lookup_lt_Some in Hs. rewrite (i_len st I) in Hs. lia.
      + intros p n Hn. apply lookup_app_Some in Hn as [Hn|[Hge Hn]].
        * destruct (i_up st I p n Hn) as [k Hk]. exists k. by apply upn_app.
        * apply list_lookup_singleton_Some in Hn as [Hz <-]. assert (p = length (s_nodes st)) as -> by lia.
          destruct parent as [q|].
          -- destruct (lookup_lt_is_Some_2 _ _ (Hp q eq_refl)) as [nq Hnq]. destruct (i_up st I q nq Hnq) as [k Hk]. exists (S k).
             econstructor; [rewrite lookup_app_r by lia; by rewrite Nat.sub_diag|]. cbn. by apply upn_app.
          -- exists 1. econstructor; [rewrite lookup_app_r by lia; by rewrite Nat.sub_diag|]. constructor.
      + intros p l Hl. apply lookup_app_Some in Hl as [Hl|[_ Hl]]; [by eapply (i_cap st I)|].
        apply list_lookup_singleton_Some in Hl as [_ [= <-]]. cbn. lia.
      + apply I.
      + apply I.
    - intros p x r [T1 T2]. split; [|intros u H1 H2; apply Hup; by eapply T2].
      cbn. unfold UnionResSpec.member_of in *. destruct (f_type (ufds x)) as [u|]; [|done]. destruct (known _); [|done]. by apply resolves_app.
  Qed.

  Lemma run_ok ops st : Inv st -> ops_ok (n_skip <$> s_nodes st) ops ->
    exists st' l, evals (fun fuel => run cap bytes ufds known field choose fuel st ops) (st', l) /\ Inv st' /\
      (forall p x r, tracked st p x r -> tracked st' p x r) /\ (forall p x r, (p, x, Member r) ∈ l -> tracked st' p x r) /\
      length (s_ra st) <= length (s_ra st') /\
      (forall p x, (p, x, TooMany) ∈ l -> (2 ^ (8 * (bytes - 1)) <= Z.of_nat (length (s_ra st')) / 256)%Z).
  Proof.
    revert st. induction ops as [|[parent skip td a|node x|parent ref sibs] ops IH]; intros st I Hok; cbn [run].
    - exists st, []. split; [apply evals_ret|]. split; [done|]. split; [done|]. split; [intros p x r H; by apply elem_of_nil in H|].
      split; [done|]. intros p x H. by apply elem_of_nil in H.
    - destruct Hok as [H1 H2]. rewrite fmap_length in H1. destruct (node_ok st parent skip td a I H1) as [I' T].
      destruct (IH _ I') as (st' & l & Ev & I2 & T2 & Hl & HL); [cbn; by rewrite fmap_app|].
      exists st', l. split; [done|]. split; [done|]. split; [|done]. intros p x r H. by apply T2, T.
    - destruct Hok as [H1 H2]. rewrite fmap_length in H1. destruct (ud_ok st node x I H1) as (st1 & o & Ev & I1 & G & _ & Hm & Hlim).
      assert (G' := G). destruct G as (Gn & _). apply grows_ra in G' as Glen.
      destruct (IH st1 I1) as (st' & l & Ev2 & I2 & T2 & Hl & HL & Hmany); [by rewrite Gn|].
      exists st', ((node, x, o) :: l). split; [|split; [done|split; [|split; [|split; [lia|]]]]].
      + eapply (evals_bind _ (fun y fuel => z ← run cap bytes ufds known field choose fuel y.1 ops; Some (z.1, (node, x, y.2) :: z.2))) in Ev.
        * eapply evals_ext; [|exact Ev]. intros fuel. cbn beta. destruct (union_discriminator cap bytes ufds known field choose fuel st node x) as [[? ?]|]; [|done]. cbn.
          by destruct (run cap bytes ufds known field choose fuel _ ops) as [[]|].
        * eapply (evals_bind _ (fun z _ => Some (z.1, (node, x, o) :: z.2))); [exact Ev2|apply evals_ret].
      + intros p y r H. apply T2. by apply (tracked_grows st).
      + intros p y r H. apply elem_of_cons in H as [[= -> -> E]|H]; [|by apply Hl]. apply T2. destruct (Hm r (eq_sym E)) as [M1 M2].
        split; [by rewrite Gn|done].
      + intros p y H. apply elem_of_cons in H as [[= -> -> E]|H]; [|by eapply Hmany]. etransitivity; [by apply Hlim|].
        apply Z.div_le_mono; lia.
    - destruct Hok as (H1 & H2 & -> & H3). rewrite fmap_length in H1. apply list_lookup_fmap_Some in H2 as (n & Hn & Hs).
      destruct (match_ok st parent ref n I H1 Hn) as (st1 & b & Ev & I1 & Hsk & T & HL1); [done|].
      destruct (IH st1 I1) as (st' & l & Ev2 & I2 & T2 & Hl & HL & Hmany); [by rewrite Hsk|].
      exists st', l. split; [|split; [done|split; [|split; [done|split; [lia|done]]]]].
      + eapply (evals_bind _ (fun y fuel => run cap bytes ufds known field choose fuel y.1 ops)) in Ev; [|exact Ev2].
        eapply evals_ext; [|exact Ev]. intros fuel. cbn beta. by destruct (match_node cap bytes ufds known field choose fuel st parent ref []) as [[? ?]|].
      + intros p x r H. by apply T2, T.
  Qed.

  (** The state at the start. *)
  Lemma inv_start : Inv (Ustate [] [] [] []).
  Proof.
    constructor; cbn; [done|by intros ? ? ?|by intros ? ? ? ?|by intros ? ?|by intros ? ?| |constructor].
    intros i. split; [intros H; by apply elem_of_nil in H|lia].
  Qed.
End Cache.
