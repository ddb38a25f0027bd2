(** add_missed_crossrefs in closed form. *)
From Verif Require Import Base Ptrs NumStr Parse Json Cinit Xml Yaml DfsProof.

(** A node has the number [r]. *)
Definition taken (ns : list node) (r : nat) : Prop := exists i n, i <> 0 /\ ns !! i = Some n /\ pub_idx n = r.
(** Position [p] is referred to by one of the nodes before [k]. *)
Definition wanted (ns : list node) (k p : nat) : Prop := exists i n, i <> 0 /\ i < k /\ ns !! i = Some n /\ is_ref n = true /\ first_child n = p.
(** The node is given its position as number. *)
Definition missed (ns : list node) (k p : nat) (n : node) : Prop := p <> 0 /\ pub_idx n = 0 /\ wanted ns k p /\ ~ taken ns p.

(** The state after the rounds before [k]. *)
Definition after (ns : list node) (k : nat) (ns' : list node) : Prop :=
  length ns' = length ns /\
  forall p n, ns !! p = Some n -> exists n', ns' !! p = Some n' /\ ((missed ns k p n /\ n' = set_idx p n) \/ (~ missed ns k p n /\ n' = n)).
Definition table_after (ns : list node) (k mx : nat) (ns' : list node) (tb : list nat) : Prop :=
  length tb = S mx /\ forall r x, r <> 0 -> tb !! r = Some x -> (x = 0 <-> ~ taken ns' r).

Lemma max_number_ge ns i n : i <> 0 -> ns !! i = Some n -> pub_idx n <= max_number ns.
Proof.
  intros Z E. unfold max_number. destruct ns as [|n0 ns]; [done|]. destruct i as [|i]; [done|]. cbn [drop]. rewrite drop_0. cbn in E.
  revert i E Z. induction ns as [|m ns IH]; intros i E _; [done|]. cbn [foldr]. destruct i as [|i]; cbn in E.
  - injection E as ->. lia.
  - specialize (IH i E ltac:(lia)). lia.
Qed.

Lemma fill_ok ns : forall i tb mx, length tb = S mx -> (forall n, n ∈ ns -> pub_idx n <= mx) -> i <> 0 ->
  exists tb', fill_table ns i tb = Some tb' /\ length tb' = S mx /\
    forall r x, r <> 0 -> tb' !! r = Some x -> (x = 0 <-> tb !! r = Some 0 /\ ~ exists n, n ∈ ns /\ pub_idx n = r).
Proof.
  induction ns as [|n ns IH]; intros i tb mx L M Z; cbn [fill_table].
  - exists tb. split; [done|]. split; [done|]. intros r x Zr E. rewrite E. split.
    + intros ->. split; [done|]. intros (n & I & _). by apply elem_of_nil in I.
    + by intros [[= ->] _].
  - assert (pub_idx n <= mx) as Mn by (apply M; by left).
    destruct (Nat.eqb_spec (pub_idx n) 0) as [Z0|Z0].
    + cbn [mbind option_bind]. destruct (IH (S i) tb mx L) as (tb' & E & L' & H); [intros; apply M; by right|done|].
      exists tb'. split; [done|]. split; [done|]. intros r x Zr Ex. rewrite (H r x Zr Ex). split; intros [A B]; (split; [done|]).
      * intros (m & I & Em). apply elem_of_cons in I as [-> | I]; [lia|]. apply B. by exists m.
      * intros (m & I & Em). apply B. exists m. split; [by right|done].
    + rewrite wr_Some by lia. cbn [mbind option_bind].
      destruct (IH (S i) (<[pub_idx n := i]> tb) mx) as (tb' & E & L' & H); [by rewrite insert_length|intros; apply M; by right|done|].
      exists tb'. split; [done|]. split; [done|]. intros r x Zr Ex. rewrite (H r x Zr Ex). split; intros [A B].
      * destruct (decide (pub_idx n = r)) as [<-|Ne].
        { rewrite list_lookup_insert in A by lia. by injection A. }
        rewrite list_lookup_insert_ne in A by done. split; [done|]. intros (m & I & Em). apply elem_of_cons in I as [-> | I]; [done|]. apply B. by exists m.
      * assert (pub_idx n <> r) as Ne by (intros <-; apply B; exists n; split; [by left|done]).
        rewrite list_lookup_insert_ne by done. split; [done|]. intros (m & I & Em). apply B. exists m. split; [by right|done].
Qed.

Lemma missed_mono ns k p n : missed ns k p n -> missed ns (S k) p n.
Proof. intros (A & B & (i & m & C) & D). split; [done|]. split; [done|]. split; [|done]. exists i, m. naive_solver lia. Qed.

Lemma taken_after ns k ns' r : after ns k ns' -> r <> 0 ->
  (taken ns' r <-> taken ns r \/ exists n, ns !! r = Some n /\ missed ns k r n).
Proof.
  intros [L A] Z. split.
  - intros (i & n' & Zi & E & Er). destruct (ns !! i) as [n|] eqn:En.
    2:{ apply lookup_lt_Some in E. apply lookup_ge_None in En. lia. }
    destruct (A i n En) as (n2 & E2 & [[M ->]|[M ->]]); rewrite E in E2; injection E2 as ->.
    + cbn in Er. subst i. right. by exists n.
    + left. by exists i, n.
  - intros [(i & n & Zi & E & Er)|(n & E & M)].
    + destruct (A i n E) as (n2 & E2 & [[M ->]|[M ->]]); [|by exists i, n]. destruct M as (_ & M & _). lia.
    + destruct (A r n E) as (n2 & E2 & [[_ ->]|[M' _]]); [|done]. exists r, (set_idx r n). done.
Qed.

Lemma wanted_step ns k p n : ns !! k = Some n -> k <> 0 -> wanted ns (S k) p <-> wanted ns k p \/ (is_ref n = true /\ first_child n = p).
Proof.
  intros E Z. split.
  - intros (i & m & Zi & L & Ei & R & F). destruct (decide (i = k)) as [->|]; [|left; exists i, m; naive_solver lia].
    rewrite E in Ei. injection Ei as ->. by right.
  - intros [(i & m & H)|[R F]]; [exists i, m; naive_solver lia|exists k, n; naive_solver lia].
Qed.

Lemma taken_dec ns r : taken ns r \/ ~ taken ns r.
Proof.
  destruct (decide (Exists (fun m => pub_idx m = r) (drop 1 ns))) as [D|D].
  - left. apply Exists_exists in D as (m & I & Ep). apply elem_of_list_lookup in I as [i I]. rewrite lookup_drop in I. by exists (1 + i), m.
  - right. intros (i & m & Zi & Ei & Ep). apply D. apply Exists_exists. exists m. split; [|done]. apply elem_of_list_lookup. exists (i - 1).
    rewrite lookup_drop. by replace (1 + (i - 1)) with i by lia.
Qed.

Lemma step_ok ns k mx ns' tb : (forall i n, i <> 0 -> ns !! i = Some n -> is_ref n = true -> first_child n <> 0) -> (Z.of_nat mx < 2 ^ 31)%Z -> (forall i n, i <> 0 -> ns !! i = Some n -> pub_idx n <= mx) -> k <> 0 -> k < length ns ->
  after ns k ns' -> table_after ns k mx ns' tb ->
  exists ns2 tb2, missed_step mx (length ns) ns' tb k = Some (ns2, tb2) /\ after ns (S k) ns2 /\ table_after ns (S k) mx ns2 tb2.
Proof.
  intros Hz Hm Hmx Zk Lk A T. pose proof A as [LA A']. destruct T as [LT T].
  destruct (ns !! k) as [n|] eqn:En; [|apply lookup_ge_None in En; lia].
  destruct (A' k n En) as (n' & En' & Hn').
  assert (is_ref n' = is_ref n /\ first_child n' = first_child n) as [Er Ef] by (destruct Hn' as [[_ ->]|[_ ->]]; done).
  unfold missed_step. rewrite (rd_lu _ _ _ En'). cbn [mbind option_bind]. rewrite Er, Ef.
  (* no change *)
  assert ((forall p m, ns !! p = Some m -> missed ns (S k) p m -> missed ns k p m) -> exists ns2 tb2, Some (ns', tb) = Some (ns2, tb2) /\ after ns (S k) ns2 /\ table_after ns (S k) mx ns2 tb2) as Same.
  { intros H. exists ns', tb. split; [done|]. split; [|done]. split; [done|]. intros p m Em. destruct (A' p m Em) as (m' & Em' & [[M ->]|[M ->]]).
    - exists (set_idx p m). split; [done|]. left. split; [by apply missed_mono|done].
    - exists m. split; [done|]. right. split; [|done]. intros M'. apply M, (H p m Em M'). }
  destruct (is_ref n) eqn:Rn.
  2:{ apply Same. intros p m Em (M1 & M2 & M3 & M4). split; [done|]. split; [done|]. split; [|done].
      apply (wanted_step ns k p n En Zk) in M3 as [?|[? _]]; [done|]. congruence. }
  set (r := first_child n) in *.
  assert (exists fr : bool, (if mx <? r then Some true else if (Z.of_nat r <? 2 ^ 31)%Z then x ← rd tb r; Some (x =? 0) else None) = Some fr /\
    (r <> 0 -> if fr then r <= mx -> ~ taken ns' r else taken ns' r)) as (fr & Efr & Hfr).
  { destruct (Nat.ltb_spec mx r); [exists true; split; [done|lia]|].
    destruct (Z.ltb_spec (Z.of_nat r) (2 ^ 31)); [|lia].
    destruct (tb !! r) as [x|] eqn:Ex; [|apply lookup_ge_None in Ex; lia]. rewrite (rd_lu _ _ _ Ex). exists (x =? 0). split; [done|].
    intros Zr. specialize (T r x Zr Ex). destruct (Nat.eqb_spec x 0); [intros _; by apply T|].
    destruct (taken_dec ns' r) as [?|D]; [done|]. exfalso. apply T in D. done. }
  rewrite Efr. cbn [mbind option_bind].
  destruct (fr && (r <? length ns)) eqn:B.
  2:{ apply Same. intros p m Em (M1 & M2 & M3 & M4). split; [done|]. split; [done|]. split; [|done].
      apply (wanted_step ns k p n En Zk) in M3 as [?|[_ Fp]]; [done|]. fold r in Fp. subst p.
      destruct (Nat.ltb_spec r (length ns)) as [Lr|Lr]; [|apply lookup_lt_Some in Em; lia]. rewrite andb_true_r in B. subst fr.
      specialize (Hfr M1). apply (taken_after ns k ns' r A M1) in Hfr as [?|(m2 & E2 & (_ & _ & W & _))]; [done|exact W]. }
  apply andb_true_iff in B as [-> Lr]. apply Nat.ltb_lt in Lr.
  destruct (ns !! r) as [m|] eqn:Em; [|apply lookup_ge_None in Em; lia].
  destruct (A' r m Em) as (m' & Em' & Hm'). rewrite (rd_lu _ _ _ Em'). cbn [mbind option_bind].
  destruct (Nat.eqb_spec (pub_idx m') 0) as [P0|P0].
  2:{ apply Same. intros p m2 Em2 (M1 & M2 & M3 & M4). split; [done|]. split; [done|]. split; [|done].
      apply (wanted_step ns k p n En Zk) in M3 as [?|[_ Fp]]; [done|]. fold r in Fp. subst p. rewrite Em in Em2. injection Em2 as ->.
      destruct Hm' as [[(_ & _ & W & _) _]|[_ ->]]; [done|]. done. }
  rewrite (wr_Some ns') by lia. cbn [mbind option_bind].
  assert (forall p m2, ns !! p = Some m2 -> p <> r -> missed ns (S k) p m2 -> missed ns k p m2) as Other.
  { intros p m2 Em2 Ne (M1 & M2 & M3 & M4). split; [done|]. split; [done|]. split; [|done].
    apply (wanted_step ns k p n En Zk) in M3 as [?|[_ Fp]]; [done|]. by fold r in Fp. }
  assert (r <> 0) as Zr by (apply (Hz k n); done). specialize (Hfr Zr).
  assert (m' = m /\ pub_idx m = 0) as [-> Pm].
  { destruct Hm' as [[_ ->]|[_ ->]]; [cbn in P0; done|done]. }
  assert (~ taken ns r) as Nt.
  { intros Tk. destruct (decide (r <= mx)) as [L|L].
    - apply Hfr; [done|]. apply (taken_after ns k ns' r A Zr). by left.
    - destruct Tk as (i & n2 & Zi & Ei & Ep). specialize (Hmx i n2 Zi Ei). lia. }
  assert (missed ns (S k) r m) as Mr.
  { split; [done|]. split; [done|]. split; [|done]. apply (wanted_step ns k r n En Zk). by right. }
  assert (after ns (S k) (<[r := set_idx r m]> ns')) as A2.
  { split; [by rewrite insert_length|]. intros p m2 Em2. destruct (decide (p = r)) as [->|Ne].
    - rewrite Em in Em2. injection Em2 as <-. exists (set_idx r m). split; [by rewrite list_lookup_insert by lia|]. by left.
    - rewrite list_lookup_insert_ne by done. destruct (A' p m2 Em2) as (m3 & E3 & [[M ->]|[M ->]]).
      + eexists. split; [done|]. left. split; [by apply missed_mono|done].
      + eexists. split; [done|]. right. split; [|done]. intros M2. apply M. by apply Other. }
  assert (forall q, q <> 0 -> taken (<[r := set_idx r m]> ns') q <-> taken ns' q \/ q = r) as Tq.
  { intros q Zq. rewrite (taken_after ns (S k) _ q A2 Zq), (taken_after ns k ns' q A Zq). split.
    - intros [?|(m2 & E2 & M2)]; [by left; left|]. destruct (decide (q = r)) as [->|Ne]; [by right|]. left. right. exists m2. split; [done|]. by apply Other.
    - intros [[?|(m2 & E2 & M2)]| ->]; [by left|right; exists m2; split; [done|by apply missed_mono]|right; by exists m]. }
  destruct (Nat.leb_spec r mx) as [L|L].
  - rewrite wr_Some by lia. cbn [mbind option_bind]. eexists _, _. split; [done|]. split; [done|]. split; [by rewrite insert_length|].
    intros q x Zq Eq. rewrite (Tq q Zq). destruct (decide (q = r)) as [->|Ne].
    + rewrite list_lookup_insert in Eq by lia. injection Eq as <-. split; [done|]. intros H. exfalso. apply H. by right.
    + rewrite list_lookup_insert_ne in Eq by done. rewrite (T q x Zq Eq). tauto.
  - cbn [mbind option_bind]. eexists _, _. split; [done|]. split; [done|]. split; [done|].
    intros q x Zq Eq. rewrite (Tq q Zq), (T q x Zq Eq). apply lookup_lt_Some in Eq. split; [|tauto]. intros H [?|?]; [done|lia].
Qed.

Lemma loop_ok ns mx j : (forall i n, i <> 0 -> ns !! i = Some n -> is_ref n = true -> first_child n <> 0) -> (Z.of_nat mx < 2 ^ 31)%Z -> (forall i n, i <> 0 -> ns !! i = Some n -> pub_idx n <= mx) ->
  forall k ns' tb, k <> 0 -> k + j = length ns -> after ns k ns' -> table_after ns k mx ns' tb ->
  exists ns2, missed_loop j k mx (length ns) ns' tb = Some ns2 /\ after ns (length ns) ns2.
Proof.
  intros Hz Hm Hmx. induction j as [|j IH]; intros k ns' tb Zk L A T; cbn [missed_loop].
  - exists ns'. split; [done|]. by replace (length ns) with k by lia.
  - destruct (step_ok ns k mx ns' tb Hz Hm Hmx Zk ltac:(lia) A T) as (ns2 & tb2 & E & A2 & T2). rewrite E. cbn [mbind option_bind fst snd].
    apply (IH (S k)); [done|lia|done|done].
Qed.

Lemma max_number_lt ns (b : Z) : (0 < b)%Z -> (forall i n, i <> 0 -> ns !! i = Some n -> (Z.of_nat (pub_idx n) < b)%Z) -> (Z.of_nat (max_number ns) < b)%Z.
Proof.
  intros Hb H. unfold max_number. assert (forall n, n ∈ drop 1 ns -> (Z.of_nat (pub_idx n) < b)%Z) as H'.
  { intros n I. apply elem_of_list_lookup in I as [i I]. rewrite lookup_drop in I. by apply (H (1 + i) n). }
  clear H. induction (drop 1 ns) as [|m l IH]; [done|]. cbn [foldr]. assert (Z.of_nat (pub_idx m) < b)%Z by (apply H'; by left).
  specialize (IH ltac:(intros; apply H'; by right)). lia.
Qed.

(** All rounds. *)
Lemma missed_ok ns : ns <> [] -> (forall i n, i <> 0 -> ns !! i = Some n -> is_ref n = true -> first_child n <> 0) ->
  (forall i n, i <> 0 -> ns !! i = Some n -> (Z.of_nat (pub_idx n) < 2 ^ 31)%Z) ->
  exists ns', add_missed_crossrefs ns = Some ns' /\ after ns (length ns) ns'.
Proof.
  intros Ne Hz Hp. unfold add_missed_crossrefs. pose proof (max_number_lt ns (2 ^ 31) ltac:(lia) Hp) as Hm.
  rewrite Z.mod_small by lia. replace (Z.to_nat (Z.of_nat (max_number ns) + 1)) with (S (max_number ns)) by lia.
  destruct (fill_ok (drop 1 ns) 1 (replicate (S (max_number ns)) 0) (max_number ns)) as (tb & E & L & H).
  { by rewrite replicate_length. }
  { intros n I. apply elem_of_list_lookup in I as [i I]. rewrite lookup_drop in I. by apply (max_number_ge ns (1 + i) n). }
  { done. }
  rewrite E. cbn [mbind option_bind]. apply loop_ok; [done|done|apply max_number_ge|done|destruct ns; [done|cbn; lia]| |].
  - split; [done|]. intros p n En. exists n. split; [done|]. right. split; [|done]. intros (_ & _ & (i & m & Zi & Li & _) & _). lia.
  - split; [done|]. intros r x Zr Er. rewrite (H r x Zr Er). split.
    + intros [_ B] (i & n & Zi & Ei & Ep). apply B. exists n. split; [|done]. apply elem_of_list_lookup. exists (i - 1). rewrite lookup_drop. by replace (1 + (i - 1)) with i by lia.
    + intros B. split; [apply lookup_replicate; apply lookup_lt_Some in Er; split; [done|lia]|].
      intros (n & I & Ep). apply elem_of_list_lookup in I as [i I]. rewrite lookup_drop in I. apply B. by exists (1 + i), n.
Qed.

(** Links are never changed. *)
Lemma step_links mx count ns tb k ns2 tb2 : missed_step mx count ns tb k = Some (ns2, tb2) -> map links ns2 = map links ns.
Proof.
  unfold missed_step. destruct (rd ns k) as [n|]; [|done]. cbn [mbind option_bind]. destruct (is_ref n); [|by intros [= <- <-]].
  destruct (if mx <? first_child n then _ else _) as [fr|]; [|done]. cbn [mbind option_bind].
  destruct (fr && _); [|by intros [= <- <-]]. destruct (rd ns (first_child n)) as [m|] eqn:Em; [|done]. cbn [mbind option_bind].
  destruct (pub_idx m =? 0); [|by intros [= <- <-]]. destruct (wr ns (first_child n) _) as [ns'|] eqn:Ew; [|done]. cbn [mbind option_bind].
  assert (map links ns' = map links ns) as L.
  { unfold wr in Ew. destruct (_ <? _); [|done]. injection Ew as <-. change (links <$> <[first_child n := set_idx (first_child n) m]> ns = links <$> ns).
    rewrite list_fmap_insert. apply list_insert_id. rewrite list_lookup_fmap. unfold rd in Em. by rewrite Em. }
  destruct (first_child n <=? mx).
  - destruct (wr tb _ _); [|done]. cbn [mbind option_bind]. by intros [= <- <-].
  - cbn [mbind option_bind]. by intros [= <- <-].
Qed.
Lemma missed_links ns ns' : add_missed_crossrefs ns = Some ns' -> map links ns' = map links ns.
Proof.
  unfold add_missed_crossrefs. destruct (fill_table _ _ _) as [tb|]; [|done]. cbn [mbind option_bind].
  assert (forall mx count k i tb ns0, missed_loop k i mx count ns0 tb = Some ns' -> map links ns' = map links ns0) as G; [|apply G].
  clear. intros mx count k. 
  induction k as [|k IH]; intros i tb ns0; cbn [missed_loop]; [by intros [= ->]|].
  destruct (missed_step mx count ns0 tb i) as [[ns2 tb2]|] eqn:E; [|done]. cbn [mbind option_bind fst snd].
  intros H. rewrite (IH _ _ _ H). by eapply step_links.
Qed.
