(** Proofs about Udo.v. *)
From stdpp Require Import relations.
From Verif Require Import Base Udo UdoSpec.

(** *** The graph *)
Section Graph.
Context (tds : list utd).
Notation tdps := (map r_tdp).

Lemma append_tds_ok order : (forall k, k ∈ order -> k < length tds) -> NoDup order ->
  exists types, append_tds tds order = Some types /\ NoDup (tdps types) /\
    (forall k, k ∈ tdps types <-> compound tds order k) /\ Forall (fun r => r_ref r = []) types.
Proof.
  induction order as [|k order IH]; intros L N.
  - exists []. split; [done|]. split; [constructor|]. split; [|constructor]. intros k. split; [by intros H%elem_of_nil|]. intros [H%elem_of_nil _]. done.
  - apply NoDup_cons in N as [N1 N]. destruct IH as (ts & E & D & M & R); [intros; apply L; by right|done|].
    destruct (rd_Some tds k) as [t Et]; [apply L; by left|]. cbn [append_tds]. rewrite Et. cbn [mbind option_bind]. rewrite E. cbn [mbind option_bind].
    eexists. split; [done|]. destruct (t_struct t) eqn:St; cbn [map r_tdp].
    + split; [|split].
      * constructor; [|done]. intros H%M. by destruct H.
      * intros j. rewrite elem_of_cons, M. unfold compound. rewrite elem_of_cons. split.
        -- intros [->|[H1 H2]]; [split; [by left|by exists t]|split; [by right|done]].
        -- intros [[->|H1] H2]; [by left|right; by split].
      * by constructor.
    + split; [done|]. split; [|done]. intros j. rewrite M. unfold compound. rewrite elem_of_cons. split.
      * intros [H1 H2]. split; [by right|done].
      * intros [[->|H1] H2]; [|by split]. destruct H2 as (t' & Et' & St'). change (tds !! k = Some t) in Et. rewrite Et in Et'. injection Et' as <-. congruence.
Qed.

Lemma tr_find_Some types k j : tr_find types k = Some j -> tdps types !! j = Some k.
Proof.
  revert j. induction types as [|r types IH]; intros j; [done|]. cbn [tr_find map]. destruct (Nat.eqb_spec (r_tdp r) k) as [->|N].
  - by intros [= <-].
  - destruct (tr_find types k) as [i|]; [|done]. intros [= <-]. by apply IH.
Qed.
Lemma tr_find_None types k : tr_find types k = None -> k ∉ tdps types.
Proof.
  induction types as [|r types IH]; [intros _ H; by apply elem_of_nil in H|]. cbn [tr_find map]. destruct (Nat.eqb_spec (r_tdp r) k) as [->|N]; [done|].
  destruct (tr_find types k); [done|]. intros _ [H|H]%elem_of_cons; [congruence|by apply IH].
Qed.

(** The references of position [j] after the types before [n] and the fields [fs] of [n]. *)
Definition edge (ks : list nat) (fs : list ufield) (j : nat) : Prop := exists f k, f ∈ fs /\ f_tdp f = Some k /\ ks !! j = Some k.
Definition edges (ks : list nat) (i j : nat) : Prop := exists k t, ks !! i = Some k /\ tds !! k = Some t /\ edge ks (t_index t) j.
Definition refs_ok (ks : list nat) (n : nat) (fs : list ufield) (types : list tref) : Prop :=
  tdps types = ks /\ forall j r, types !! j = Some r -> forall i, i ∈ r_ref r <-> (i < n /\ edges ks i j) \/ (i = n /\ edge ks fs j).

Lemma append_ref_ok ks n fs f types : NoDup ks -> refs_ok ks n fs types ->
  exists types', append_ref types n f = Some types' /\ refs_ok ks n (fs ++ [f]) types'.
Proof.
  intros N [E R]. unfold append_ref. 
  assert (forall j, edge ks (fs ++ [f]) j <-> edge ks fs j \/ exists k, f_tdp f = Some k /\ ks !! j = Some k) as Ed.
  { intros j. unfold edge. split.
    - intros (g & k & [H|H]%elem_of_app & G); [left; by exists g, k|]. apply elem_of_list_singleton in H as ->. right. by exists k.
    - intros [(g & k & H & G)|(k & G)]; [exists g, k; split; [apply elem_of_app; by left|done]|]. exists f, k. split; [apply elem_of_app; right; by apply elem_of_list_singleton|done]. }
  destruct (f_tdp f) as [k|] eqn:Ef; cbn [mbind option_bind].
  - destruct (tr_find types k) as [j|] eqn:Et.
    + apply tr_find_Some in Et. rewrite E in Et. assert (j < length types) as Lj by (rewrite <- (map_length r_tdp), E; by eapply lookup_lt_Some).
      destruct (rd_Some types j Lj) as [r Er]. rewrite Er. cbn [mbind option_bind]. change (types !! j = Some r) in Er.
      rewrite wr_Some by done. eexists. split; [done|]. split.
      { change (map r_tdp) with (fmap (M := list) r_tdp). rewrite list_fmap_insert. cbn [r_tdp]. change (fmap r_tdp types) with (map r_tdp types).
        rewrite E. apply list_insert_id. rewrite <- E. change (map r_tdp) with (fmap (M := list) r_tdp). by rewrite list_lookup_fmap, Er. }
      intros j' r' Er' i. destruct (decide (j' = j)) as [->|Nj].
      * rewrite list_lookup_insert in Er' by done. injection Er' as <-. cbn [r_ref]. rewrite elem_of_app, elem_of_list_singleton, (R j r Er), Ed.
        split; [intros [[?|[? ?]]| ->]; [by left|right; split; [done|by left]|right; split; [done|right; by exists k]]|].
        intros [?|[-> [?|_]]]; [left; by left|left; by right|by right].
      * rewrite list_lookup_insert_ne in Er' by done. rewrite (R j' r' Er'), Ed. split; [intros [?|[? ?]]; [by left|right; split; [done|by left]]|].
        intros [?|[-> [?|(k' & [= <-] & Ek)]]]; [by left|by right|]. exfalso. apply Nj. by eapply NoDup_lookup.
    + exists types. split; [done|]. split; [done|]. intros j r Er i. rewrite (R j r Er), Ed. split; [intros [?|[? ?]]; [by left|right; split; [done|by left]]|].
      intros [?|[-> [?|(k' & [= <-] & Ek)]]]; [by left|by right|]. exfalso. apply tr_find_None in Et. apply Et. rewrite E. by eapply elem_of_list_lookup_2.
  - exists types. split; [done|]. split; [done|]. intros j r Er i. rewrite (R j r Er), Ed. split; [intros [?|[? ?]]; [by left|right; split; [done|by left]]|].
    intros [?|[-> [?|(k' & ? & Ek)]]]; [by left|by right|done].
Qed.

Lemma append_refs_ok ks n gs : forall fs types, NoDup ks -> refs_ok ks n fs types ->
  exists types', append_refs types n gs = Some types' /\ refs_ok ks n (fs ++ gs) types'.
Proof.
  induction gs as [|g gs IH]; intros fs types N R; cbn [append_refs].
  - rewrite app_nil_r. by exists types.
  - destruct (append_ref_ok ks n fs g types N R) as (types1 & -> & R1). cbn [mbind option_bind].
    destruct (IH (fs ++ [g]) types1 N R1) as (types2 & -> & R2). exists types2. split; [done|]. by rewrite <- app_assoc in R2.
Qed.

Lemma build_graph_ok ks m : forall n types, NoDup ks -> (forall k, k ∈ ks -> k < length tds) -> n + m = length ks ->
  refs_ok ks n [] types -> exists types', build_graph tds types n m = Some types' /\ refs_ok ks (n + m) [] types'.
Proof.
  induction m as [|m IH]; intros n types N L E R; cbn [build_graph].
  - rewrite Nat.add_0_r. by exists types.
  - destruct R as [Ek R]. assert (n < length types) as Ln by (rewrite <- (map_length r_tdp), Ek; lia).
    destruct (rd_Some types n Ln) as [r Er]. rewrite Er. cbn [mbind option_bind]. change (types !! n = Some r) in Er.
    assert (ks !! n = Some (r_tdp r)) as Kn by (rewrite <- Ek; change (map r_tdp) with (fmap (M := list) r_tdp); by rewrite list_lookup_fmap, Er).
    destruct (rd_Some tds (r_tdp r)) as [t Et]; [apply L; by eapply elem_of_list_lookup_2|]. rewrite Et. cbn [mbind option_bind]. change (tds !! r_tdp r = Some t) in Et.
    destruct (append_refs_ok ks n (t_index t) [] types N) as (types1 & -> & E1 & R1); [by split|]. cbn [mbind option_bind]. cbn [app] in R1.
    destruct (IH (S n) types1 N L) as (types2 & -> & R2); [lia| |].
    + split; [done|]. intros j r' Ej i. rewrite (R1 j r' Ej). split.
      * intros [[? ?]|[-> ?]]; left; [split; [lia|done]|]. split; [lia|]. by exists (r_tdp r), t.
      * intros [[Hi He]|[_ (f & k & Hf & _)]]; [|by apply elem_of_nil in Hf]. destruct (decide (i = n)) as [->|]; [|left; split; [lia|done]].
        right. split; [done|]. destruct He as (k & t' & K1 & K2 & He). rewrite Kn in K1. injection K1 as <-. rewrite Et in K2. by injection K2 as <-.
    + exists types2. split; [done|]. by rewrite Nat.add_succ_r.
Qed.
End Graph.

(** *** The search *)
Section Search.
Context (tds : list utd) (types : list tref) (name : nat).
Notation N := (length types).
(** The name of the type of the field at position [i]. *)
Definition has (i : nat) (s : Z) : Prop :=
  exists r t f d td, types !! i = Some r /\ tds !! r_tdp r = Some t /\ fd_by_name t name = Some f /\ f_tdp f = Some d /\ tds !! d = Some td /\ t_str td = s.
Definition step (i j : nat) : Prop := (forall s, ~ has i s) /\ exists r, types !! i = Some r /\ j ∈ r_ref r.
Context (Hr : forall i r, types !! i = Some r -> r_tdp r < length tds /\ forall j, j ∈ r_ref r -> j < N).
Context (Hd : forall k t f d, tds !! k = Some t -> fd_by_name t name = Some f -> f_tdp f = Some d -> d < length tds).

Definition unvis (v : list bool) : nat := length (filter (fun b => b = false) v).
Lemma unvis_set v i : v !! i = Some false -> S (unvis (<[i := true]> v)) = unvis v.
Proof.
  revert i. induction v as [|b v IH]; intros [|i] E; try done; cbn in E.
  - injection E as ->. unfold unvis. change (<[0 := true]> (false :: v)) with (true :: v). rewrite (filter_cons_False _ true), (filter_cons_True _ false) by done. done.
  - specialize (IH i E). unfold unvis in *. change (<[S i := true]> (b :: v)) with (b :: <[i := true]> v). destruct (decide (b = false)) as [->|Hb].
    + rewrite !filter_cons_True by done. cbn [length]. by rewrite <- IH.
    + by rewrite !filter_cons_False by done.
Qed.
Lemma unvis_mono v v' : length v = length v' -> (forall j, v !! j = Some true -> v' !! j = Some true) -> unvis v' <= unvis v.
Proof.
  revert v'. induction v as [|b v IH]; intros [|b' v'] L M; try done. injection L as L. specialize (IH v' L (fun j => M (S j))).
  unfold unvis in *. destruct b'.
  - rewrite (filter_cons_False _ true v') by done. rewrite filter_cons. destruct (decide (b = false)); cbn; lia.
  - assert (b = false) as -> by (destruct b; [specialize (M 0 eq_refl); done|done]). rewrite !filter_cons_True by done. cbn. lia.
Qed.

(** What a search that starts from the positions [from] does. *)
Definition vis (v : list bool) (j : nat) : Prop := v !! j = Some true.
Definition searched (from : list nat) (v : list bool) (d : option Z) (ok : bool) (v' : list bool) (d' : option Z) : Prop :=
  length v' = N /\ (forall j, vis v j -> vis v' j) /\
  (forall j, vis v' j -> vis v j \/ exists i, i ∈ from /\ rtc step i j) /\
  (d' = d \/ d = None /\ exists i j s, d' = Some s /\ i ∈ from /\ rtc step i j /\ has j s) /\
  (if ok then (forall i, i ∈ from -> vis v' i) /\
     forall j, vis v' j -> vis v j \/ (forall s, has j s -> d' = Some s) /\ (forall j', step j j' -> vis v' j')
   else exists s i j s', d' = Some s /\ i ∈ from /\ rtc step i j /\ has j s' /\ s <> s').

Lemma has_same i s s' : has i s -> has i s' -> s = s'.
Proof. intros (? & ? & ? & ? & ? & ? & ? & ? & ? & ? & ?) (? & ? & ? & ? & ? & ? & ? & ? & ? & ? & ?). by simplify_eq. Qed.

Lemma searched_nil v d : length v = N -> searched [] v d true v d.
Proof. intros L. split; [done|]. split; [done|]. split; [by left|]. split; [by left|]. split; [by intros i H%elem_of_nil|by left]. Qed.
Lemma searched_app i js v d v1 d1 ok v2 d2 : searched [i] v d true v1 d1 -> searched js v1 d1 ok v2 d2 -> searched (i :: js) v d ok v2 d2.
Proof.
  intros (L1 & M1 & S1 & D1 & I1 & C1) (L2 & M2 & S2 & D2 & R2).
  split; [done|]. split; [auto|]. split.
  { intros j H. destruct (S2 j H) as [H'|(k & Hk & P)]; [|right; exists k; split; [by right|done]].
    destruct (S1 j H') as [|(k & Hk & P)]; [by left|]. apply elem_of_list_singleton in Hk as ->. right. exists i. split; [by left|done]. }
  assert (d1 = d \/ d = None /\ exists i0 j s, d1 = Some s /\ i0 ∈ i :: js /\ rtc step i0 j /\ has j s) as D1'.
  { destruct D1 as [->|(-> & k & j & s & -> & Hk & P & H)]; [by left|]. right. split; [done|]. apply elem_of_list_singleton in Hk as ->.
    exists i, j, s. split; [done|]. split; [by left|done]. }
  split.
  { destruct D2 as [->|(-> & k & j & s & -> & Hk & P & H)]; [done|]. destruct D1' as [<-|(_ & k' & j' & s' & ? & _)]; [|done].
    right. split; [done|]. exists k, j, s. split; [done|]. split; [by right|done]. }
  destruct ok.
  - destruct R2 as [I2 C2]. split.
    + intros k [->|Hk]%elem_of_cons; [apply M2, I1; by left|by apply I2].
    + intros j Hj. destruct (C2 j Hj) as [Hj1|?]; [|by right]. destruct (C1 j Hj1) as [?|[A B]]; [by left|]. right. split; [|auto].
      intros s Hs. specialize (A s Hs). destruct D2 as [->|(? & _)]; [done|congruence].
  - destruct R2 as (s & k & j & s' & ? & Hk & P). exists s, k, j, s'. split; [done|]. split; [by right|done].
Qed.
Lemma searched_fail i js v d v1 d1 : searched [i] v d false v1 d1 -> searched (i :: js) v d false v1 d1.
Proof.
  assert (forall k, k ∈ [i] -> k ∈ i :: js) as Sub by (intros k ->%elem_of_list_singleton; by left).
  intros (L1 & M1 & S1 & D1 & R1). split; [done|]. split; [done|]. split; [|split].
  - intros j H. destruct (S1 j H) as [|(k & Hk & P)]; [by left|right; exists k; auto].
  - destruct D1 as [|(? & k & j & s & ? & Hk & P)]; [by left|]. right. split; [done|]. exists k, j, s. auto.
  - destruct R1 as (s & k & j & s' & ? & Hk & P). exists s, k, j, s'. auto.
Qed.

Lemma udo_dfs_ok fuel : forall i v d, length v = N -> i < N -> unvis v < fuel ->
  exists ok v' d', udo_dfs tds types name fuel i v d = Some (ok, v', d') /\ searched [i] v d ok v' d'.
Proof.
  induction fuel as [|fuel IH]; intros i v d L Li F; [lia|]. cbn [udo_dfs].
  destruct (rd_Some v i) as [b Eb]; [lia|]. rewrite Eb. cbn [mbind option_bind]. change (v !! i = Some b) in Eb. destruct b.
  { exists true, v, d. split; [done|]. split; [done|]. split; [done|]. split; [by left|]. split; [by left|]. split; [by intros k ->%elem_of_list_singleton|by left]. }
  rewrite wr_Some by lia. cbn [mbind option_bind]. set (v1 := <[i := true]> v).
  assert (length v1 = N) as L1 by (unfold v1; by rewrite insert_length).
  assert (forall j, vis v1 j <-> j = i \/ vis v j) as V1.
  { intros j. unfold v1, vis. destruct (decide (j = i)) as [->|]; [rewrite list_lookup_insert by lia; split; [by left|done]|rewrite list_lookup_insert_ne by done; split; [by right|by intros [?|?]]]. }
  destruct (rd_Some types i Li) as [r Er]. rewrite Er. cbn [mbind option_bind]. change (types !! i = Some r) in Er.
  destruct (Hr i r Er) as [Hk Hj]. destruct (rd_Some tds (r_tdp r) Hk) as [t Et]. rewrite Et. cbn [mbind option_bind]. change (tds !! r_tdp r = Some t) in Et.
  destruct (fd_by_name t name ≫= f_tdp) as [k|] eqn:Ef.
  - apply bind_Some in Ef as (f & Ef & Ek). destruct (rd_Some tds k) as [td Etd]; [by eapply Hd|]. rewrite Etd. cbn [mbind option_bind]. change (tds !! k = Some td) in Etd.
    assert (has i (t_str td)) as Hi by (by exists r, t, f, k, td).
    assert (forall (ok : bool) (d' : option Z), (d' = d \/ d = None /\ d' = Some (t_str td)) -> (if ok then d' = Some (t_str td) else exists s, d' = Some s /\ s <> t_str td) -> searched [i] v d ok v1 d') as K.
    { intros ok d' Hd' Ho. split; [done|]. split; [intros j H; apply V1; by right|]. split; [|split].
      - intros j [->|?]%V1; [|by left]. right. exists i. split; [by left|done].
      - destruct Hd' as [->|[-> ->]]; [by left|]. right. split; [done|]. exists i, i, (t_str td). split; [done|]. split; [by left|done].
      - destruct ok.
        + split; [intros j ->%elem_of_list_singleton; apply V1; by left|]. intros j [->|?]%V1; [|by left]. right. split.
          * intros s Hs. by rewrite (has_same i s _ Hs Hi).
          * intros j' [Hn _]. by apply Hn in Hi.
        + destruct Ho as (s & -> & Hs). exists s, i, i, (t_str td). split; [done|]. split; [by left|done]. }
    destruct d as [s|].
    + eexists _, _, _. split; [done|]. apply K; [by left|]. destruct (Z.eqb_spec s (t_str td)) as [->|]; [done|by exists s].
    + eexists _, _, _. split; [done|]. apply K; [by right|done].
  - assert (forall s, ~ has i s) as Hn.
    { intros s (r' & t' & f & k & td & E1 & E2 & E3 & E4 & _). simplify_eq. rewrite E3 in Ef. cbn in Ef. congruence. }
    assert (unvis v1 < fuel) as F1 by (pose proof (unvis_set v i Eb); fold v1 in H; lia).
    assert (forall refs v2 d2, (forall j, j ∈ refs -> j < N) -> length v2 = N -> unvis v2 < fuel -> exists ok v' d',
      (fix loop (refs : list nat) (visited : list bool) (disc : option Z) :=
           match refs with
           | [] => Some (true, visited, disc)
           | j :: refs =>
             x ← udo_dfs tds types name fuel j visited disc;
             let '(ok, visited, disc) := (x : bool * list bool * option Z) in
             if ok then loop refs visited disc else Some (false, visited, disc)
           end) refs v2 d2 = Some (ok, v', d') /\ searched refs v2 d2 ok v' d') as Loop.
    { induction refs as [|j refs IHr]; intros v2 d2 Hjs L2 F2.
      - exists true, v2, d2. split; [done|]. by apply searched_nil.
      - destruct (IH j v2 d2 L2) as (ok & v3 & d3 & -> & S3); [apply Hjs; by left|done|]. cbn [mbind option_bind]. destruct ok.
        + destruct S3 as (L3 & M3 & R3). destruct (IHr v3 d3) as (ok & v4 & d4 & -> & S4); [intros; apply Hjs; by right|done| |].
          { pose proof (unvis_mono v2 v3 ltac:(congruence) M3). lia. }
          exists ok, v4, d4. split; [done|]. eapply searched_app; [|exact S4]. exact (conj L3 (conj M3 R3)).
        + eexists _, _, _. split; [done|]. by apply searched_fail. }
    destruct (Loop (r_ref r) v1 d Hj L1 F1) as (ok & v' & d' & -> & L' & M' & S' & D' & R'). clear Loop.
    exists ok, v', d'. split; [done|].
    assert (forall k j, k ∈ r_ref r -> rtc step k j -> rtc step i j) as Up.
    { intros k j Hkk P. eapply rtc_l; [|exact P]. split; [done|]. by exists r. }
    split; [done|]. split; [intros j H; apply M', V1; by right|]. split; [|split].
    + intros j H. destruct (S' j H) as [[->|?]%V1|(k & Hk' & P)]; [right; exists i; split; [by left|done]|by left|].
      right. exists i. split; [by left|by eapply Up].
    + destruct D' as [->|(-> & k & j & s & -> & Hk' & P & H)]; [by left|]. right. split; [done|]. exists i, j, s. split; [done|]. split; [by left|]. split; [by eapply Up|done].
    + destruct ok.
      * destruct R' as [I' C']. split; [intros j ->%elem_of_list_singleton; apply M', V1; by left|]. intros j H.
        destruct (C' j H) as [[->|?]%V1|?]; [|by left|by right]. right. split; [intros s Hs; by apply Hn in Hs|].
        intros j' (_ & r' & E & Hj'). rewrite Er in E. injection E as <-. by apply I'.
      * destruct R' as (s & k & j & s' & ? & Hk' & P & ? & ?). exists s, i, j, s'. split; [done|]. split; [by left|]. split; [by eapply Up|done].
Qed.

(** The whole search. *)
Lemma udo_search i : i < N -> exists ok v' d', udo_dfs tds types name (S N) i (replicate N false) None = Some (ok, v', d') /\
  forall s, (ok = true /\ d' = Some s) <-> ((exists j, rtc step i j /\ has j s) /\ forall j s', rtc step i j -> has j s' -> s' = s).
Proof.
  intros Li. destruct (udo_dfs_ok (S N) i (replicate N false) None) as (ok & v' & d' & E & L & M & S' & D & R); [by rewrite replicate_length|done| |].
  { assert (forall n, unvis (replicate n false) <= n) as B; [|specialize (B N); lia]. induction n as [|n IH]; [done|]. cbn [replicate]. unfold unvis in *. rewrite filter_cons_True by done. cbn. lia. }
  exists ok, v', d'. split; [done|].
  assert (forall j, ~ vis (replicate N false) j) as V0 by (intros j H; apply lookup_replicate in H as [? _]; done).
  destruct ok.
  - destruct R as [I C]. assert (forall j, rtc step i j -> vis v' j) as Cl.
    { intros j P. assert (vis v' i) as H by (apply I; by left). clear -P H C V0. induction P as [|x y z Hxy P IH]; [done|]. apply IH.
      destruct (C x H) as [?%V0|[_ B]]; [done|by apply B]. }
    intros s. split.
    + intros [_ ->]. destruct D as [?|(_ & k & j & s' & [= <-] & ->%elem_of_list_singleton & P & H)]; [done|]. split; [by exists j|].
      intros j' s' P' H'. destruct (C j' (Cl j' P')) as [?%V0|[A _]]; [done|]. specialize (A s' H'). congruence.
    + intros [(j & P & H) _]. split; [done|]. destruct (C j (Cl j P)) as [?%V0|[A _]]; [done|by apply A].
  - intros s. split; [by intros [? _]|]. intros [_ U]. exfalso. destruct R as (s1 & k & j & s2 & -> & ->%elem_of_list_singleton & P & H & Ns).
    destruct D as [?|(_ & k' & j' & s3 & [= <-] & ->%elem_of_list_singleton & P' & H')]; [done|].
    rewrite (U j s2 P H), (U j' s1 P' H') in Ns. done.
Qed.
End Search.

(** *** The loops over overrides *)
Definition typed_as (s : Z) (o : uover) : uover := match o_type o with None => Ov (o_value o) (Some s) true | Some _ => o end.

Lemma set_types_ok s n : forall u i, i + n <= length u -> exists u', set_types u s i n = Some u' /\ length u' = length u /\
  forall e o, u !! e = Some o -> u' !! e = Some (if decide (i <= e < i + n) then typed_as s o else o).
Proof.
  induction n as [|n IH]; intros u i L; cbn [set_types].
  - exists u. split; [done|]. split; [done|]. intros e o E. destruct (decide _); [lia|done].
  - destruct (rd_Some u i) as [o Eo]; [lia|]. rewrite Eo. cbn [mbind option_bind]. change (u !! i = Some o) in Eo.
    assert (exists u1, match o_type o with None => wr u i (Ov (o_value o) (Some s) true) | Some _ => Some u end = Some u1 /\
      u1 = <[i := typed_as s o]> u) as (u1 & -> & ->).
    { eexists. split; [|done]. unfold typed_as. destruct (o_type o); [by rewrite list_insert_id|apply wr_Some; lia]. }
    cbn [mbind option_bind]. destruct (IH (<[i := typed_as s o]> u) (S i)) as (u' & -> & L' & H); [rewrite insert_length; lia|].
    exists u'. split; [done|]. rewrite insert_length in L'. split; [done|]. intros e o' E. destruct (decide (e = i)) as [->|N].
    + rewrite (H i (typed_as s o)) by (apply list_lookup_insert; lia). rewrite Eo in E. injection E as <-.
      rewrite decide_False by lia. by rewrite decide_True by lia.
    + rewrite (H e o') by (by rewrite list_lookup_insert_ne). destruct (decide (S i <= e < S i + n)); [by rewrite decide_True by lia|by rewrite decide_False by lia].
Qed.

Lemma some_untyped_ok n : forall u i, i + n <= length u -> exists b, some_untyped u i n = Some b /\
  (b = false -> forall e o, i <= e < i + n -> u !! e = Some o -> o_type o <> None).
Proof.
  induction n as [|n IH]; intros u i L; cbn [some_untyped].
  - exists false. split; [done|]. intros _ e o H. lia.
  - destruct (rd_Some u i) as [o Eo]; [lia|]. rewrite Eo. cbn [mbind option_bind]. change (u !! i = Some o) in Eo.
    destruct (o_type o) eqn:T; [|by exists true]. destruct (IH u (S i)) as (b & -> & H); [lia|]. exists b. split; [done|].
    intros -> e o' He E. destruct (decide (e = i)) as [->|]; [rewrite Eo in E; injection E as <-; congruence|]. apply (H eq_refl e o'); [lia|done].
Qed.

(** *** All together *)
Section All.
Context (tds : list utd) (order : list nat) (ovs : list (list uover)) (W : udo_wf tds order ovs).
Context (types : list tref) (ks : list nat) (Nd : NoDup ks).
Context (Hks : forall k, k ∈ ks <-> compound tds order k) (G : refs_ok tds ks (length ks) [] types).

Lemma pos_tdp p r : types !! p = Some r -> ks !! p = Some (r_tdp r).
Proof. destruct G as [<- _]. intros E. change (map r_tdp types) with (fmap r_tdp types). by rewrite list_lookup_fmap, E. Qed.
Lemma pos_ref p k : ks !! p = Some k -> exists r, types !! p = Some r /\ r_tdp r = k.
Proof.
  destruct G as [E _]. rewrite <- E. change (map r_tdp types) with (fmap r_tdp types). intros H. apply list_lookup_fmap_inv in H as (r & -> & H). by exists r.
Qed.
Lemma types_length : length types = length ks.
Proof. destruct G as [<- _]. by rewrite map_length. Qed.
Lemma ks_compound p k : ks !! p = Some k -> compound tds order k.
Proof. intros H. apply Hks. by eapply elem_of_list_lookup_2. Qed.

Lemma by_name_in t m f : t_struct t = true -> NoDup (map f_name (t_index t)) -> fd_by_name t m = Some f <-> f ∈ t_index t /\ f_name f = m.
Proof.
  intros St. unfold fd_by_name. rewrite St. cbn [negb]. induction (t_index t) as [|g l IH]; intros N.
  - split; [done|]. intros [H%elem_of_nil _]. done.
  - cbn [map] in N. apply NoDup_cons in N as [N1 N]. specialize (IH N). cbn [List.find]. destruct (Nat.eqb_spec (f_name g) m) as [E|E].
    + split; [intros [= <-]; split; [by left|done]|]. intros [[->|H]%elem_of_cons Hm]; [done|]. exfalso. apply N1. rewrite E, <- Hm. apply elem_of_list_fmap. by exists f.
    + rewrite IH. rewrite elem_of_cons. split; [intros [? ?]; split; [by right|done]|]. intros [[->|?] ?]; [congruence|by split].
Qed.

Lemma has_iff m p k s : ks !! p = Some k -> has tds types m p s <-> discriminated tds k m s.
Proof.
  intros Hk. destruct (pos_ref p k Hk) as (r & Er & Ek). destruct (ks_compound p k Hk) as [_ (t & Et & St)].
  pose proof (fun f => by_name_in t m f St (uw_names _ _ _ W k t Et)) as B. split.
  - intros (r' & t' & f & d & td & E1 & E2 & E3 & E4 & E5 & E6). rewrite Er in E1. injection E1 as <-. rewrite Ek, Et in E2. injection E2 as <-.
    apply B in E3 as [? ?]. by exists t, f, d, td.
  - intros (t' & f & d & td & E2 & E3 & E3' & E4 & E5 & E6). rewrite Et in E2. injection E2 as <-. exists r, t, f, d, td. split; [done|]. split; [by rewrite Ek|]. split; [by apply B|done].
Qed.

Lemma ref_iff p k r q : ks !! p = Some k -> types !! p = Some r -> q ∈ r_ref r <-> exists kq, ks !! q = Some kq /\ encloses tds order kq k.
Proof.
  intros Hk Er. destruct G as [E R]. rewrite (R p r Er q). split.
  - intros [[_ (kq & t & Hq & Et & f & k' & Hf & Ef & Ek)]|[_ (f & k' & Hf & _)]]; [|by apply elem_of_nil in Hf].
    rewrite Hk in Ek. injection Ek as <-. exists kq. split; [done|]. split; [by eapply ks_compound|]. split; [by eapply ks_compound|]. by exists t, f.
  - intros (kq & Hq & _ & _ & t & f & Et & Hf & Ef). left. split; [by eapply lookup_lt_Some|]. exists kq, t. split; [done|]. split; [done|]. by exists f, k.
Qed.

Lemma around_iff m p k : ks !! p = Some k -> forall q kq, ks !! q = Some kq -> rtc (step tds types m) p q <-> around tds order m k kq.
Proof.
  intros Hk. assert (forall q, rtc (step tds types m) p q -> exists kq, ks !! q = Some kq /\ around tds order m k kq) as F.
  { intros q P. apply (rtc_ind_r (R := step tds types m) (fun q => exists kq, ks !! q = Some kq /\ around tds order m k kq) p); [exists k; split; [done|constructor]| |done].
    intros x y _ (Hn & r & Er & Hy0) (kx & Hx & A). destruct (proj1 (ref_iff x kx r y Hx Er) Hy0) as (ky & Hy & En). exists ky. split; [done|].
    eapply around_up; [exact A| |exact En]. intros s D. apply (Hn s). by apply (has_iff m x kx s Hx). }
  intros q kq Hq. split.
  - intros P. destruct (F q P) as (k' & Hq' & A). rewrite Hq in Hq'. by injection Hq' as <-.
  - intros A. revert q Hq. induction A as [|j k' A IH Hn En]; intros q Hq.
    + assert (q = p) as ->; [by eapply NoDup_lookup|done].
    + assert (j ∈ ks) as Hj by (apply Hks, En). apply elem_of_list_lookup in Hj as [x Hx]. specialize (IH x Hx). eapply rtc_r; [exact IH|]. split.
      * intros s H. apply (has_iff m x j s Hx) in H. by apply (Hn s).
      * destruct (pos_ref x j Hx) as (r & Er & _). exists r. split; [done|]. apply (ref_iff x j r q Hx Er). by exists k'.
Qed.

Lemma search_agreed m p k : ks !! p = Some k -> exists ok v' d',
  udo_dfs tds types m (S (length types)) p (replicate (length types) false) None = Some (ok, v', d') /\
  forall s, (ok = true /\ d' = Some s) <-> agreed tds order k m s.
Proof.
  intros Hk. destruct (udo_search tds types m) with (i := p) as (ok & v' & d' & E & H).
  - intros i r Er. pose proof (pos_tdp i r Er) as Hi. split.
    + apply (uw_types _ _ _ W). apply (ks_compound i _ Hi).
    + intros j Hj. apply (ref_iff i _ r j Hi Er) in Hj as (kj & Hj & _). rewrite types_length. by eapply lookup_lt_Some.
  - intros k' t f d Et Ef Ed. apply (uw_desc _ _ _ W k' t f d Et); [|done]. unfold fd_by_name in Ef. destruct (t_struct t); [|done]. apply List.find_some in Ef as [Ef _]. by apply elem_of_list_In.
  - rewrite types_length. by eapply lookup_lt_Some.
  - exists ok, v', d'. split; [done|]. intros s. rewrite H. unfold agreed. split.
    + intros [(j & P & Hj) U]. split.
      * assert (exists kj, ks !! j = Some kj) as [kj Ej] by (destruct Hj as (r & ? & ? & ? & ? & Er & _); exists (r_tdp r); by apply pos_tdp).
        exists kj. split; [by apply (around_iff m p k Hk j kj Ej)|by apply (has_iff m j kj s Ej)].
      * intros k' s' A D. assert (k' ∈ ks) as Hin by (apply Hks; destruct A; [by eapply ks_compound|apply H1]). apply elem_of_list_lookup in Hin as [q Hq].
        apply (U q s'); [by apply (around_iff m p k Hk q k' Hq)|by apply (has_iff m q k' s' Hq)].
    + intros [(k' & A & D) U]. split.
      * assert (k' ∈ ks) as Hin by (apply Hks; destruct A; [by eapply ks_compound|apply H1]). apply elem_of_list_lookup in Hin as [q Hq].
        exists q. split; [by apply (around_iff m p k Hk q k' Hq)|by apply (has_iff m q k' s Hq)].
      * intros j s' P Hj. assert (exists kj, ks !! j = Some kj) as [kj Ej] by (destruct Hj as (r & ? & ? & ? & ? & Er & _); exists (r_tdp r); by apply pos_tdp).
        apply (U kj s'); [by apply (around_iff m p k Hk j kj Ej)|by apply (has_iff m j kj s' Ej)].
Qed.

(** Field [f] of type [k] applies to override [e] of array [a]. *)
Definition covers (f : ufield) (a e m : nat) : Prop := f_udo f = Some a /\ f_tdp f <> None /\ f_meta f = Some m /\ e < f_count f.
Definition kept (dn : list (nat * ufield)) (cur : list (list uover)) : Prop :=
  length cur = length ovs /\
  forall a u, ovs !! a = Some u -> exists u', cur !! a = Some u' /\ length u' = length u /\
  forall e o, u !! e = Some o -> exists o', u' !! e = Some o' /\ o_value o' = o_value o /\
    match o_type o with
    | Some _ => o' = o
    | None => (o' = o /\ forall k f m s, (k, f) ∈ dn -> covers f a e m -> ~ agreed tds order k m s) \/
              (exists s k f m, o' = Ov (o_value o) (Some s) true /\ (k, f) ∈ dn /\ covers f a e m /\ agreed tds order k m s)
    end.

Lemma kept_more dn x cur : kept dn cur -> (forall a e m s u o, covers x.2 a e m -> ovs !! a = Some u -> u !! e = Some o ->
  agreed tds order x.1 m s -> (exists u' o', cur !! a = Some u' /\ u' !! e = Some o' /\ o_type o' <> None)) -> kept (dn ++ [x]) cur.
Proof.
  intros [L K] H. split; [done|]. intros a u Eu. destruct (K a u Eu) as (u' & Eu' & Lu & Ke). exists u'. split; [done|]. split; [done|].
  intros e o Eo. destruct (Ke e o Eo) as (o' & Eo' & Ov' & T). exists o'. split; [done|]. split; [done|]. destruct (o_type o) eqn:To; [done|].
  destruct T as [[-> T]|(s & k & f & m & -> & Hin & T)].
  - left. split; [done|]. intros k f m s [Hin|Hin]%elem_of_app C A; [by eapply T|]. apply elem_of_list_singleton in Hin as <-. cbn in H.
    destruct (H a e m s u o C Eu Eo A) as (u2 & o2 & E1 & E2 & E3). rewrite Eu' in E1. injection E1 as <-. rewrite Eo' in E2. injection E2 as <-. done.
  - right. exists s, k, f, m. split; [done|]. split; [apply elem_of_app; by left|done].
Qed.

Lemma detect_types_ok dn p k t f cur : ks !! p = Some k -> tds !! k = Some t -> f ∈ t_fields t -> kept dn cur ->
  exists cur', detect_types tds types p f cur = Some cur' /\ kept (dn ++ [(k, f)]) cur'.
Proof.
  intros Hk Et Hf K. unfold detect_types.
  destruct (f_udo f) as [a|] eqn:Ea; [|exists cur; split; [done|]; apply kept_more; [done|]; intros ? ? ? ? ? ? (C & _); cbn in C; congruence].
  destruct (f_tdp f) as [d|] eqn:Ed; [|exists cur; split; [done|]; apply kept_more; [done|]; intros ? ? ? ? ? ? (_ & C & _); cbn in C; congruence].
  destruct (f_meta f) as [m|] eqn:Em; [|exists cur; split; [done|]; apply kept_more; [done|]; intros ? ? ? ? ? ? (_ & _ & C & _); cbn in C; congruence].
  destruct (uw_size _ _ _ W k t f a) as (u & Eu & Lc); [apply (ks_compound p k Hk)|done|done|done|].
  destruct K as [L K]. destruct (K a u Eu) as (u' & Eu' & Lu & Ke).
  assert (kept dn cur) as K0 by done.
  assert (rd cur a = Some u') as -> by exact Eu'. cbn [mbind option_bind].
  destruct (some_untyped_ok (f_count f) u' 0) as (b & -> & Hb); [lia|]. cbn [mbind option_bind]. destruct b.
  2: { exists cur. split; [done|]. apply kept_more; [done|]. intros a' e m' s u2 o (C1 & _ & _ & C2) Eu2 Eo _. cbn in C1, C2. rewrite Ea in C1. injection C1 as <-.
       rewrite Eu in Eu2. injection Eu2 as <-. destruct (Ke e o Eo) as (o' & Eo' & _). exists u', o'. split; [done|]. split; [done|]. apply (Hb eq_refl e o'); [lia|done]. }
  destruct (search_agreed m p k Hk) as (ok & v' & d' & -> & A). cbn [mbind option_bind].
  assert ((forall s, ~ agreed tds order k m s) -> kept (dn ++ [(k, f)]) cur) as No.
  { intros H. apply kept_more; [done|]. intros a' e m' s u2 o (_ & _ & C & _) _ _ Ag. cbn in C, Ag. rewrite Em in C. injection C as <-. by apply H in Ag. }
  destruct ok; [destruct d' as [s|]|].
  - assert (agreed tds order k m s) as Ag by (by apply A). destruct (set_types_ok s (f_count f) u' 0) as (u2 & -> & L2 & H2); [lia|]. cbn [mbind option_bind].
    assert (a < length cur) as La by (by eapply lookup_lt_Some). rewrite wr_Some by done. eexists. split; [done|]. split; [by rewrite insert_length|].
    intros a' w Ew. destruct (decide (a' = a)) as [->|Na].
    + rewrite Eu in Ew. injection Ew as <-. exists u2. split; [by apply list_lookup_insert|]. split; [congruence|]. intros e o Eo.
      destruct (Ke e o Eo) as (o' & Eo' & Ov' & T). rewrite (H2 e o' Eo'). eexists. split; [done|]. cbn [Nat.add].
      destruct (o_type o) as [s0|] eqn:To.
      * subst o'. unfold typed_as. rewrite To. by destruct (decide _).
      * destruct T as [[-> T]|(s' & k' & f' & m' & -> & Hin & T)].
        -- unfold typed_as. rewrite To. destruct (decide (0 <= e < f_count f)) as [He|He].
           ++ split; [done|]. right. exists s, k, f, m. split; [done|]. split; [apply elem_of_app; right; by apply elem_of_list_singleton|]. split; [|done].
              split; [done|]. split; [congruence|]. split; [done|lia].
           ++ split; [done|]. left. split; [done|]. intros k' f' m' s' [Hin|Hin]%elem_of_app C; [by eapply T|]. apply elem_of_list_singleton in Hin as [= -> ->].
              destruct C as (_ & _ & _ & C). lia.
        -- unfold typed_as. cbn [o_type]. replace (if decide (0 <= e < f_count f) then _ else _) with (Ov (o_value o) (Some s') true) by (by destruct (decide _)).
           split; [done|]. right. exists s', k', f', m'. split; [done|]. split; [apply elem_of_app; by left|done].
    + rewrite list_lookup_insert_ne by done. destruct (K a' w Ew) as (w' & Ew' & Lw & Kw). exists w'. split; [done|]. split; [done|].
      intros e o Eo. destruct (Kw e o Eo) as (o' & Eo' & Ov' & T). exists o'. split; [done|]. split; [done|]. destruct (o_type o); [done|].
      destruct T as [[-> T]|(s' & k' & f' & m' & -> & Hin & T)].
      * left. split; [done|]. intros k' f' m' s' [Hin|Hin]%elem_of_app C; [by eapply T|]. apply elem_of_list_singleton in Hin as [= -> ->]. destruct C as (C & _). congruence.
      * right. exists s', k', f', m'. split; [done|]. split; [apply elem_of_app; by left|done].
  - exists cur. split; [done|]. apply No. intros s Hs. apply A in Hs as [_ ?]. done.
  - exists cur. split; [done|]. apply No. intros s Hs. apply A in Hs as [? _]. done.
Qed.

Lemma detect_fields_ok p k t fs : forall dn cur, ks !! p = Some k -> tds !! k = Some t -> (forall f, f ∈ fs -> f ∈ t_fields t) -> kept dn cur ->
  exists cur', detect_fields tds types p fs cur = Some cur' /\ kept (dn ++ map (pair k) fs) cur'.
Proof.
  induction fs as [|f fs IH]; intros dn cur Hk Et Hf K; cbn [detect_fields].
  - exists cur. split; [done|]. cbn [map]. by rewrite app_nil_r.
  - destruct (detect_types_ok dn p k t f cur Hk Et) as (c1 & -> & K1); [apply Hf; by left|done|]. cbn [mbind option_bind].
    destruct (IH _ c1 Hk Et (fun f H => Hf f (elem_of_list_further _ _ _ H)) K1) as (c2 & -> & K2). exists c2. split; [done|]. cbn [map]. by rewrite <- app_assoc in K2.
Qed.

Lemma udo_foreach_ok n : forall p cur dn, p + n = length ks -> kept dn cur ->
  (forall k f, (k, f) ∈ dn <-> exists q t, q < p /\ ks !! q = Some k /\ tds !! k = Some t /\ f ∈ t_fields t) ->
  exists cur' dn', udo_foreach tds types p n cur = Some cur' /\ kept dn' cur' /\
  (forall k f, (k, f) ∈ dn' <-> exists t, k ∈ ks /\ tds !! k = Some t /\ f ∈ t_fields t).
Proof.
  induction n as [|n IH]; intros p cur dn E K D; cbn [udo_foreach].
  - exists cur, dn. split; [done|]. split; [done|]. intros k f. rewrite D. split.
    + intros (q & t & _ & Hq & Ht). exists t. split; [by eapply elem_of_list_lookup_2|done].
    + intros (t & [q Hq]%elem_of_list_lookup & Ht). exists q, t. split; [apply lookup_lt_Some in Hq; lia|done].
  - destruct (lookup_lt_is_Some_2 ks p) as [k Hk]; [lia|]. destruct (pos_ref p k Hk) as (r & Er & Ek).
    assert (rd types p = Some r) as -> by done. cbn [mbind option_bind]. destruct (ks_compound p k Hk) as [_ (t & Et & _)].
    assert (rd tds (r_tdp r) = Some t) as -> by (by rewrite Ek). cbn [mbind option_bind].
    destruct (detect_fields_ok p k t (t_fields t) dn cur Hk Et) as (c1 & -> & K1); [done|done|]. cbn [mbind option_bind].
    apply (IH (S p) c1 (dn ++ map (pair k) (t_fields t))); [lia|exact K1|]. intros k' f. rewrite elem_of_app, D. split.
    + intros [(q & t' & Lq & R)|H]; [exists q, t'; split; [lia|done]|]. apply elem_of_list_fmap in H as (g & [= -> ->] & Hg). exists p, t. split; [lia|done].
    + intros (q & t' & Lq & Hq & Ht & Hf). destruct (decide (q = p)) as [->|]; [|left; exists q, t'; split; [lia|done]].
      right. rewrite Hk in Hq. injection Hq as <-. rewrite Et in Ht. injection Ht as <-. apply elem_of_list_fmap. by exists f.
Qed.
End All.

Lemma udo_init_ok tds order ovs : udo_wf tds order ovs ->
  exists ovs', udo_init tds order true ovs = Some ovs' /\ length ovs' = length ovs /\
  forall a u, ovs !! a = Some u -> exists u', ovs' !! a = Some u' /\ length u' = length u /\
  forall e o, u !! e = Some o -> exists o', u' !! e = Some o' /\ o_value o' = o_value o /\
    match o_type o with
    | Some _ => o' = o
    | None => (o' = o /\ forall i m s, overrides tds order i a e m -> ~ agreed tds order i m s) \/
              (exists s i m, o' = Ov (o_value o) (Some s) true /\ overrides tds order i a e m /\ agreed tds order i m s)
    end.
Proof.
  intros W. destruct (append_tds_ok tds order) as (ts & E & D & M & R); [apply W|apply W|]. set (ks := map r_tdp ts) in *.
  assert (length ts = length ks) as Ln by (unfold ks; by rewrite map_length).
  destruct (build_graph_ok tds ks (length ks) 0 ts D) as (types & Eb & G).
  - intros k [Hk _]%M. by apply (uw_types _ _ _ W).
  - done.
  - split; [done|]. intros j r Ej i. rewrite (Forall_lookup_1 _ _ _ _ R Ej). split; [by intros H%elem_of_nil|].
    intros [[? _]|[_ (f & k & H%elem_of_nil & _)]]; [lia|done].
  - cbn [Nat.add] in G. unfold udo_init. cbn [negb]. rewrite E. cbn [mbind option_bind]. rewrite Ln, Eb. cbn [mbind option_bind].
    assert (length types = length ks) as Lt by (destruct G as [Gk _]; rewrite <- Gk; by rewrite map_length). rewrite Lt. destruct (udo_foreach_ok tds order ovs W types ks D M G (length ks) 0 ovs []) as (ovs' & dn & Ef & [L K] & Dn).
    + done.
    + split; [done|]. intros a u Eu. exists u. split; [done|]. split; [done|]. intros e o Eo. exists o. split; [done|]. split; [done|].
      destruct (o_type o); [done|]. left. split; [done|]. by intros k f m s H%elem_of_nil.
    + intros k f. split; [by intros H%elem_of_nil|]. intros (q & t & ? & _). lia.
    + exists ovs'. split; [done|]. split; [done|]. intros a u Eu. destruct (K a u Eu) as (u' & Eu' & Lu & Ke). exists u'. split; [done|]. split; [done|].
      intros e o Eo. destruct (Ke e o Eo) as (o' & Eo' & Ov' & T). exists o'. split; [done|]. split; [done|]. destruct (o_type o); [done|].
      destruct T as [[-> T]|(s & k & f & m & -> & Hin & C & A)].
      * left. split; [done|]. intros i m s (Ci & t & f & Et & Hf & C) A. apply (T i f m s); [|done|done]. apply Dn. exists t. split; [by apply M|done].
      * right. exists s, k, m. split; [done|]. split; [|done]. apply Dn in Hin as (t & Hk & Et & Hf). split; [by apply M|]. by exists t, f.
Qed.

(** *** Pointers in mr_ptr_t *)
Lemma register_pointer_ok tds u k un t : tds !! u = Some un -> tds !! k = Some t -> t_fields un <> [] ->
  exists tds' f, register_pointer tds u k = Some tds' /\ length tds' = length tds /\ (forall j, j <> u -> tds' !! j = tds !! j) /\
    exists un', tds' !! u = Some un' /\ t_struct un' = t_struct un /\ t_name un' = t_name un /\ t_str un' = t_str un /\ t_fields un' = t_fields un /\
      (f_name f = t_name t /\ f_tdp f = Some k) /\
      (t_index un' = t_index un ++ [f] /\ fd_by_name un (t_name t) = None \/ t_index un' = t_index un /\ fd_by_name un (t_name t) <> None).
Proof.
  intros Eu Et Nf. unfold register_pointer. assert (rd tds u = Some un) as -> by done. assert (rd tds k = Some t) as -> by done. cbn [mbind option_bind].
  destruct (fd_by_name un (t_name t)) as [g|] eqn:Eg.
  - exists tds, (Fl (t_name t) (Some k) None None 0). split; [done|]. split; [done|]. split; [done|]. exists un. do 6 (split; [done|]). right. done.
  - destruct (t_fields un) as [|f l] eqn:Ef; [done|]. cbn [rd lookup list_lookup mbind option_bind]. rewrite wr_Some by (by eapply lookup_lt_Some).
    eexists _, (Fl (t_name t) (Some k) (f_meta f) (f_udo f) (f_count f)). split; [done|]. split; [apply insert_length|]. split; [intros j Nj; by apply list_lookup_insert_ne|].
    eexists. split; [apply list_lookup_insert; by eapply lookup_lt_Some|]. cbn. do 5 (split; [done|]). left. done.
Qed.
