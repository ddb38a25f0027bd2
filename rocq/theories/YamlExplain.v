(** Whatever events are accepted, they are those of a document. *)
From stdpp Require Import sets.
From Verif Require Import Base Ptrs NumStr Parse ParseProof DfsProof Json Cinit Xml Yaml YamlSpec YamlParse YamlSave YamlMissed YamlProof.

(** ** Nesting *)
Fixpoint node_end (dep : nat) (l : list yev) : option (list yev) :=
  match l with
  | [] => None
  | ev :: l => let dep := match ev with EMap _ | ESeq _ => S dep | EMapEnd | ESeqEnd => pred dep | _ => dep end in
               if Nat.eqb dep 0 then Some l else node_end dep l
  end.
Definition passes (x : list yev) : Prop := forall dep r, node_end (S dep) (x ++ r) = node_end (S dep) r.
Lemma passes_nil : passes []. Proof. done. Qed.
Lemma passes_app x y : passes x -> passes y -> passes (x ++ y).
Proof. intros X Y dep r. by rewrite <- app_assoc, X, Y. Qed.
Lemma passes_one ev : match ev with EMap _ | ESeq _ | EMapEnd | ESeqEnd => False | _ => True end -> passes [ev].
Proof. intros H dep r. by destruct ev. Qed.
Lemma passes_open o c x : passes x -> match o with EMap _ | ESeq _ => True | _ => False end -> match c with EMapEnd | ESeqEnd => True | _ => False end -> passes (o :: x ++ [c]).
Proof. intros X Ho Hc dep r. destruct o; try done; destruct c; try done; cbn [app node_end Nat.eqb]; rewrite <- app_assoc, X; done. Qed.
Lemma ends_open o c x r : passes x -> match o with EMap _ | ESeq _ => True | _ => False end -> match c with EMapEnd | ESeqEnd => True | _ => False end -> node_end 0 (o :: x ++ c :: r) = Some r.
Proof. intros X Ho Hc. destruct o; try done; destruct c; try done; cbn [app node_end Nat.eqb]; rewrite X; done. Qed.

Scheme wf_node_mut := Induction for wf_node Sort Prop
  with wf_pairs_mut := Induction for wf_pairs Sort Prop
  with wf_nodes_mut := Induction for wf_nodes Sort Prop.

Lemma wf_passes l : wf_node l -> passes l.
Proof.
  intros W. induction W using wf_node_mut with (P0 := fun l _ => passes l) (P1 := fun l _ => passes l).
  - by apply passes_one.
  - by apply passes_one.
  - by apply passes_open.
  - by apply passes_open.
  - done.
  - apply passes_app; [done|]. by apply passes_app.
  - done.
  - by apply passes_app.
Qed.
Lemma wf_inner : (forall l, wf_pairs l -> passes l) /\ (forall l, wf_nodes l -> passes l).
Proof.
  split; induction 1.
  - done.
  - apply passes_app; [by apply wf_passes|]. apply passes_app; [by apply wf_passes|done].
  - done.
  - apply passes_app; [by apply wf_passes|done].
Qed.
Lemma wf_end l r : wf_node l -> node_end 0 (l ++ r) = Some r.
Proof.
  destruct wf_inner as [Wp Wn]. destruct 1; [done|done| |]; cbn [app]; rewrite <- app_assoc; by apply ends_open; auto.
Qed.

Lemma devs_passes t : passes (devs t).
Proof.
  induction t as [a ks IH] using doc_ind'. rewrite devs_eq. apply passes_app.
  { unfold key_evs. destruct (p_key a) as [[]|]; [by apply passes_one|done]. }
  assert (passes (concat (map devs ks))) as Pk.
  { induction IH as [|t ts Ht _ IH]; [done|]. cbn [map concat]. by apply passes_app. }
  destruct (p_body a); [by apply passes_one|by apply passes_open|by apply passes_open|by apply passes_one].
Qed.
Lemma devs_end t r : p_key (pay t) = None -> node_end 0 (devs t ++ r) = Some r.
Proof.
  destruct t as [a ks]. cbn [pay]. intros K. rewrite devs_eq. unfold key_evs. rewrite K. cbn [app].
  assert (passes (concat (map devs ks))) as Pk.
  { induction ks as [|t ts IH]; [done|]. cbn [map concat]. apply passes_app; [apply devs_passes|done]. }
  destruct (p_body a); [done| | |done]; cbn [app]; rewrite <- app_assoc; by apply ends_open.
Qed.

Section Load.
  Context (known : list Z -> bool).
  Notation good := (doc_all (ygood known)).
  Notation yopened := (opened (I := yread) yfin).

  (** The step for a node. *)
  Definition add_pay (a : ypay) (s : lst yread) : option (lst yread) :=
    match p_body a with
    | BScalar an v => add_node (snd <$> p_key a) (Some v) an None (match p_key a with None => true | Some _ => false end) s
    | BAlias al => add_node (snd <$> p_key a) None None (Some al) (match p_key a with None => true | Some _ => false end) s
    | BMap an => add_node (snd <$> p_key a) None an None false s
    | BSeq an => add_node (snd <$> p_key a) None an None true s
    end.
  Lemma head_step a u pre n0 ks c is rest : yfits known u a -> place pre is u ->
    read_events known (key_evs a ++ open_ev (p_body a) :: rest) (yopened pre n0 ks c is) =
    (s' ← add_pay a (yopened pre n0 ks c is); read_events known rest s').
  Proof.
    intros Fi Pl. pose proof (flag_ok pre n0 ks c is u Pl) as Fl. unfold key_evs, add_pay, yfits in *. destruct (p_key a) as [[kan nm]|].
    - destruct Fi as [-> Kn]. cbn [app read_events fmap option_fmap option_map snd]. rewrite Fl. cbn [mbind option_bind]. rewrite Kn. by destruct (p_body a).
    - cbn [app fmap option_fmap option_map]. destruct (p_body a); cbn [read_events open_ev]; try done.
      destruct Fi as [-> | ?]; [|done]. by rewrite Fl.
  Qed.

  Definition inside (m : nat) : Prop := forall evs, length evs < m -> forall pre n0 ks c is u s', place pre is u ->
    length is = length pre + S (dsizes ks) -> first_child n0 = 0 -> cached (length pre) ks c -> length pre <> 0 ->
    read_events known evs (yopened pre n0 ks c is) = Some s' ->
    exists ts rest, evs = concat (map devs ts) ++ (if u then ESeqEnd else EMapEnd) :: rest /\ Forall good ts /\ Forall (fun d => yfits known u (pay d)) ts.

  (** One node, when what is inside of nodes is known. *)
  Lemma one a evs pre n0 ks c is u s' : inside (S (length evs)) -> yfits known u a -> place pre is u ->
    length is = length pre + S (dsizes ks) -> first_child n0 = 0 -> cached (length pre) ks c -> length pre <> 0 \/ ks = [] ->
    read_events known (key_evs a ++ open_ev (p_body a) :: evs) (yopened pre n0 ks c is) = Some s' ->
    exists ts rest, good (Doc a ts) /\ key_evs a ++ open_ev (p_body a) :: evs = devs (Doc a ts) ++ rest /\ length rest <= length evs.
  Proof.
    intros In Fi Pl Li F C D. rewrite (head_step a u) by done.
    destruct (add_ok known a pre n0 ks c is Li F C D) as (pre' & L & T & Ad). unfold add_pay.
    assert (is_open (p_body a) = true -> forall uk, r_unnamed (yinf a) = uk ->
      read_events known evs (yopened pre' (yfin a (length pre') (blank (length pre) 0 0)) [] (length pre') (is ++ [yinf a])) = Some s' ->
      exists ts rest, evs = concat (map devs ts) ++ (if uk then ESeqEnd else EMapEnd) :: rest /\ Forall good ts /\ Forall (fun d => yfits known uk (pay d)) ts) as Op.
    { intros O uk Hu R. destruct (yfin_open a (length pre') (length pre) 0 O) as [F' _].
      apply (In evs ltac:(lia) pre' (yfin a (length pre') (blank (length pre) 0 0)) [] (length pre') (is ++ [yinf a]) uk s'); [|rewrite app_length; unfold dsizes; cbn; lia|done|apply cached_nil|lia|done].
      unfold place. destruct (decide _); [lia|]. exists (yinf a). split; [|done]. rewrite lookup_app_r by lia. by replace (length pre' - length is) with 0 by lia. }
    destruct (p_body a) as [an v|an|an|al] eqn:Eb; cbn [open_ev].
    - intros _. exists [], evs. split; [apply doc_all_eq; unfold ygood; by rewrite Eb|]. rewrite devs_eq, Eb, <- app_assoc. done.
    - rewrite Ad. cbn [mbind option_bind]. intros R.
      destruct (Op eq_refl false) as (ts & rest & -> & G & Ft); [unfold yinf; rewrite Eb; unfold yinf0; by rewrite Eb|done|].
      exists ts, rest. split; [apply doc_all_eq; unfold ygood; by rewrite Eb|]. rewrite devs_eq, Eb, <- !app_assoc. cbn [app]. rewrite <- app_assoc.
      split; [done|]. rewrite app_length. cbn. lia.
    - rewrite Ad. cbn [mbind option_bind]. intros R.
      destruct (Op eq_refl true) as (ts & rest & -> & G & Ft); [unfold yinf; rewrite Eb; unfold yinf0; by rewrite Eb|done|].
      exists ts, rest. split; [apply doc_all_eq; unfold ygood; by rewrite Eb|]. rewrite devs_eq, Eb, <- !app_assoc. cbn [app]. rewrite <- app_assoc.
      split; [done|]. rewrite app_length. cbn. lia.
    - intros _. exists [], evs. split; [apply doc_all_eq; unfold ygood; by rewrite Eb|]. rewrite devs_eq, Eb, <- app_assoc. done.
  Qed.

  (** The first events decide about the node. *)
  Lemma split_head evs s u s' : (if Nat.eqb (l_cur s) 0 then Some true else cur_unnamed s) = Some u -> read_events known evs s = Some s' ->
    (exists a evs1, evs = key_evs a ++ open_ev (p_body a) :: evs1 /\ yfits known u a) \/
    (exists ev evs1, evs = ev :: evs1 /\ match ev with EMapEnd | ESeqEnd | EStreamStart | EStreamEnd | EDocStart | EDocEnd => True | _ => False end).
  Proof.
    intros Fl. destruct evs as [|ev evs]; [done|]. destruct ev as [| | | |an v|an| |an| |al]; cbn [read_events]; intros R; try (right; by eexists _, _).
    - rewrite Fl in R. cbn [mbind option_bind] in R. left. destruct u.
      + exists (YPay None (BScalar an v)), evs. split; [done|by left].
      + destruct (known v) eqn:K; [|done]. destruct evs as [|ev2 evs]; [done|].
        destruct ev2 as [| | | |an2 w|an2| |an2| |al2]; try done; [eexists (YPay (Some (an, v)) (BScalar an2 w)), evs|eexists (YPay (Some (an, v)) (BMap an2)), evs|eexists (YPay (Some (an, v)) (BSeq an2)), evs|eexists (YPay (Some (an, v)) (BAlias al2)), evs]; done.
    - left. exists (YPay None (BMap an)), evs. split; [done|by right].
    - left. exists (YPay None (BSeq an)), evs. split; [done|by right].
    - left. exists (YPay None (BAlias al)), evs. split; [done|by right].
  Qed.

  Lemma inside_all m : inside m.
  Proof.
    induction m as [|m IH]; intros evs L; [lia|]. intros pre n0 ks c is u s' Pl Li F C D R.
    destruct (split_head evs _ u s' (flag_ok pre n0 ks c is u Pl) R) as [(a & evs1 & -> & Fi)|(ev & evs1 & -> & Hev)].
    - rewrite app_length in L. cbn [length] in L.
      destruct (one a evs1 pre n0 ks c is u s') as (ts & rest & G & E & Lr); [intros x Hx; apply IH; lia|done|done|done|done|done|by left|done|].
      rewrite E in R. destruct (yaccept known (Doc a ts) G u pre n0 ks c is Fi Pl Li F C ltac:(by left)) as (c' & C' & Ac).
      rewrite Ac in R. destruct (IH rest ltac:(lia)) with (pre := pre) (n0 := n0) (ks := ks ++ [Doc a ts]) (c := c') (is := is ++ dinfos yinf (Doc a ts)) (u := u) (s' := s') as (ts2 & rest2 & -> & G2 & F2).
      { apply place_app; [lia|done]. } { rewrite app_length, dinfos_length, dsizes_app, dsizes_one. lia. } { done. } { done. } { done. } { done. }
      exists (Doc a ts :: ts2), rest2. split; [rewrite E; cbn [map concat]; by rewrite <- app_assoc|]. split; by constructor.
    - exists [], evs1. split; [|done]. cbn [map concat app]. f_equal.
      unfold place in Pl. destruct (decide _); [done|]. destruct Pl as (r & Er & Ur).
      assert (Nat.eqb (length pre) 0 = false) as Z0 by (by apply Nat.eqb_neq).
      destruct ev; try done; cbn [read_events] in R; change (l_cur (yopened pre n0 ks c is)) with (length pre) in R; rewrite ?Z0 in R; try done.
      + unfold close_node in R. change (l_cur (yopened pre n0 ks c is)) with (length pre) in R. rewrite Z0, (cur_ok _ _ _ _ _ r Er) in R. cbn [mbind option_bind] in R. rewrite Ur in R. by destruct u.
      + unfold close_node in R. change (l_cur (yopened pre n0 ks c is)) with (length pre) in R. rewrite Z0, (cur_ok _ _ _ _ _ r Er) in R. cbn [mbind option_bind] in R. rewrite Ur in R. by destruct u.
  Qed.

  Lemma explain evs s : wf_stream evs -> read_events known evs (lstart yread0) = Some s ->
    exists d, good d /\ p_key (pay d) = None /\ evs = stream d.
  Proof.
    intros (body & W & ->) R. cbn [read_events lstart l_cur Nat.eqb] in R.
    change (lstart yread0) with (yopened [] fresh_node [] 0 [yread0]) in R.
    destruct (split_head _ (yopened [] fresh_node [] 0 [yread0]) true s (flag_ok [] fresh_node [] 0 [yread0] true eq_refl) R) as [(a & evs1 & E & Fi)|(ev & evs1 & E & Hev)].
    - rewrite E in R. destruct (one a evs1 [] fresh_node [] 0 [yread0] true s) as (ts & rest & G & E2 & _); [apply inside_all|done|done|done|done|apply cached_nil|by right|done|].
      assert (p_key a = None) as K by (unfold yfits in Fi; destruct (p_key a) as [[]|]; [by destruct Fi|done]).
      exists (Doc a ts). split; [done|]. split; [done|]. unfold stream. do 2 f_equal.
      pose proof (wf_end body [EDocEnd; EStreamEnd] W) as E3. rewrite E, E2, (devs_end (Doc a ts) rest K) in E3. injection E3 as ->. by rewrite E, E2.
    - exfalso. destruct W; cbn in E; injection E as <- _; done.
  Qed.
End Load.

(** ** What is in the nodes *)
Lemma yinf_name a : r_name (yinf a) = snd <$> p_key a.
Proof.
  unfold yinf, yinf0. destruct (p_body a) as [| | |al]; try done. unfold read_alias. destruct (scan_template _ _); [done|]. destruct (scan_template _ _); [done|]. by destruct (decide _).
Qed.
Lemma yinf_val a : r_val (yinf a) = match p_body a with BScalar _ v => Some v | _ => None end.
Proof.
  unfold yinf, yinf0. destruct (p_body a) as [| | |al]; try done. unfold read_alias. destruct (scan_template _ _); [done|]. destruct (scan_template _ _); [done|]. by destruct (decide _).
Qed.

Lemma doc_pays (P : ypay -> list ydoc -> Prop) (d : ydoc) : doc_all P d -> Forall (fun a => exists ks, P a ks) (dinfos id d).
Proof.
  induction d as [a ks IH] using doc_ind'. rewrite doc_all_eq. intros [H Hs]. cbn [dinfos id]. constructor; [by exists ks|].
  clear H. induction IH as [|t ts Ht _ IH]; [constructor|]. apply Forall_cons in Hs as [H1 H2]. cbn [map concat]. apply Forall_app. split; auto.
Qed.

(** Children are only in mappings and sequences. *)
Lemma pay_events known (d : ydoc) : doc_all (ygood known) d -> forall a, a ∈ dinfos id d -> open_ev (p_body a) ∈ devs d /\ (forall an nm, p_key a = Some (an, nm) -> EScalar an nm ∈ devs d).
Proof.
  induction d as [a0 ks IH] using doc_ind'. rewrite doc_all_eq. intros [G Gs] a. cbn [dinfos id]. rewrite devs_eq. intros [-> | H]%elem_of_cons.
  - split.
    + apply elem_of_app. right. destruct (p_body a0); by left.
    + intros an nm E. apply elem_of_app. left. unfold key_evs. rewrite E. by left.
  - assert (exists d, d ∈ ks /\ a ∈ dinfos id d) as (d & Id & Ia).
    { clear -H. induction ks as [|t ts IHt]; [by apply elem_of_nil in H|]. cbn [map concat] in H. apply elem_of_app in H as [H|H]; [exists t; split; [by left|done]|].
      destruct (IHt H) as (d & ? & ?). exists d. split; [by right|done]. }
    rewrite Forall_forall in IH, Gs. destruct (IH d Id (Gs d Id) a Ia) as [H1 H2].
    assert (forall e, e ∈ devs d -> e ∈ key_evs a0 ++
      match p_body a0 with BScalar an v => [EScalar an v] | BMap an => EMap an :: concat (map devs ks) ++ [EMapEnd] | BSeq an => ESeq an :: concat (map devs ks) ++ [ESeqEnd] | BAlias al => [EAlias al] end) as Up.
    { intros e He. assert (e ∈ concat (map devs ks)) as Hc.
      { apply elem_of_list_In, in_concat. exists (devs d). split; [apply List.in_map; by apply elem_of_list_In|by apply elem_of_list_In]. }
      apply elem_of_app. right. unfold ygood in G. destruct (p_body a0); try (subst ks; by apply elem_of_nil in Id); right; apply elem_of_app; by left. }
    split; [by apply Up|]. intros an nm E. by apply Up, H2.
Qed.

Lemma pay_known known (d : ydoc) : doc_all (ygood known) d -> p_key (pay d) = None -> forall a an nm, a ∈ dinfos id d -> p_key a = Some (an, nm) -> known nm = true.
Proof.
  intros G K. assert (match p_key (pay d) with Some (_, nm) => known nm = true | None => True end) as K' by (by rewrite K). clear K. revert G K'.
  induction d as [a0 ks IH] using doc_ind'. rewrite doc_all_eq. cbn [pay]. intros [G Gs] K a an nm. cbn [dinfos id]. intros [-> | H]%elem_of_cons E; [by rewrite E in K|].
  assert (exists d, d ∈ ks /\ a ∈ dinfos id d) as (d & Id & Ia).
  { clear -H. induction ks as [|t ts IHt]; [by apply elem_of_nil in H|]. cbn [map concat] in H. apply elem_of_app in H as [H|H]; [exists t; split; [by left|done]|].
    destruct (IHt H) as (d & ? & ?). exists d. split; [by right|done]. }
  rewrite Forall_forall in IH, Gs. apply (IH d Id (Gs d Id)) with (a := a) (an := an); [|done|done].
  unfold ygood in G. destruct (p_body a0); try (subst ks; by apply elem_of_nil in Id); rewrite Forall_forall in G; specialize (G d Id); unfold yfits in G; destruct (p_key (pay d)) as [[]|]; try done; by destruct G.
Qed.

Lemma count_app {A} (p : A -> bool) l k : count p (l ++ k) = count p l + count p k.
Proof. unfold count. by rewrite filter_app, app_length. Qed.
Lemma count_cons {A} (p : A -> bool) x l : count p (x :: l) = (if p x then 1 else 0) + count p l.
Proof. unfold count. rewrite filter_cons. destruct (p x); cbn; destruct (decide _); try done; exfalso; auto. Qed.

Lemma count_starts known (d : ydoc) : doc_all (ygood known) d -> count starts (devs d) = dsize d + count has_name (dinfos yinf d).
Proof.
  induction d as [a ks IH] using doc_ind'. rewrite doc_all_eq. intros [G Gs]. rewrite devs_eq. cbn [dinfos dsize]. rewrite count_app, count_cons.
  unfold has_name at 1. rewrite yinf_name.
  assert (count starts (concat (map devs ks)) = dsizes ks + count has_name (concat (map (dinfos yinf) ks))) as K.
  { clear G. induction IH as [|t ts Ht _ IH]; [done|]. apply Forall_cons in Gs as [G1 G2]. cbn [map concat]. rewrite !count_app, dsizes_cons, Ht, IH by done. lia. }
  assert (count starts (key_evs a) = match snd <$> p_key a with Some _ => 1 | None => 0 end) as ->.
  { unfold key_evs. by destruct (p_key a) as [[]|]. }
  assert (list_sum (map dsize ks) = dsizes ks) as -> by done.
  generalize (snd <$> p_key a) as nm. intros nm.
  destruct (p_body a) eqn:Eb; unfold ygood in G; rewrite Eb in G.
  - subst ks. rewrite count_cons. cbn [starts map concat]. change (dsizes []) with 0. change (count starts []) with 0. change (count has_name []) with 0. destruct nm; lia.
  - rewrite count_cons, count_app, K. cbn [starts]. change (count starts [EMapEnd]) with 0. destruct nm; lia.
  - rewrite count_cons, count_app, K. cbn [starts]. change (count starts [ESeqEnd]) with 0. destruct nm; lia.
  - subst ks. rewrite count_cons. cbn [starts map concat]. change (dsizes []) with 0. change (count starts []) with 0. change (count has_name []) with 0. destruct nm; lia.
Qed.

(** ** Documents written by hand *)
Section Plain.
  Context (known : list Z -> bool).
  Scheme plain_node_mut := Induction for plain_node Sort Prop
    with plain_pairs_mut := Induction for plain_pairs Sort Prop
    with plain_nodes_mut := Induction for plain_nodes Sort Prop.

  Definition no_anchor (a : ypay) : Prop := match p_body a with BScalar an _ | BMap an | BSeq an => an = None | BAlias _ => False end.
  Lemma plain_doc l : plain_node known l -> forall key, exists d, p_key (pay d) = key /\ doc_all (ygood known) d /\ Forall no_anchor (dinfos id d) /\ devs d = key_evs (pay d) ++ l.
  Proof.
    intros W. induction W using plain_node_mut with
      (P0 := fun l _ => exists ds, Forall (fun d => yfits known false (pay d)) ds /\ Forall (doc_all (ygood known)) ds /\ Forall no_anchor (concat (map (dinfos id) ds)) /\ concat (map devs ds) = l)
      (P1 := fun l _ => exists ds, Forall (fun d => yfits known true (pay d)) ds /\ Forall (doc_all (ygood known)) ds /\ Forall no_anchor (concat (map (dinfos id) ds)) /\ concat (map devs ds) = l).
    - intros key. exists (Doc (YPay key (BScalar None v)) []). split; [done|]. split; [by apply doc_all_eq|]. split; [by repeat constructor|]. by rewrite devs_eq.
    - intros key. destruct IHW as (ds & F & G & N & E). exists (Doc (YPay key (BMap None)) ds). split; [done|]. split; [by apply doc_all_eq|].
      split; [constructor; done|]. rewrite devs_eq. cbn [p_body pay]. by rewrite E.
    - intros key. destruct IHW as (ds & F & G & N & E). exists (Doc (YPay key (BSeq None)) ds). split; [done|]. split; [by apply doc_all_eq|].
      split; [constructor; done|]. rewrite devs_eq. cbn [p_body pay]. by rewrite E.
    - exists []. repeat split; constructor.
    - destruct IHW0 as (ds & F & G & N & E), (IHW (Some (None, nm))) as (d & Kd & Gd & Nd & Ed). exists (d :: ds).
      split; [constructor; [unfold yfits; by rewrite Kd|done]|]. split; [by constructor|]. split; [cbn; by apply Forall_app|].
      cbn [map concat]. rewrite E, Ed. unfold key_evs. by rewrite Kd.
    - exists []. repeat split; constructor.
    - destruct IHW0 as (ds & F & G & N & E), (IHW None) as (d & Kd & Gd & Nd & Ed). exists (d :: ds).
      split; [constructor; [unfold yfits; rewrite Kd; by left|done]|]. split; [by constructor|]. split; [cbn; by apply Forall_app|].
      cbn [map concat]. rewrite E, Ed. unfold key_evs. by rewrite Kd.
  Qed.
End Plain.

(** Scalars have no children. *)
Lemma scalar_leaf known (d : ydoc) : doc_all (ygood known) d -> forall p k nx j n a, table yfin p k nx d !! j = Some n -> dinfos id d !! j = Some a ->
  is_scalar (p_body a) = true -> first_child n = 0.
Proof.
  induction d as [a0 ks IH] using doc_ind'. rewrite doc_all_eq. intros [G Gs] p k nx j n a. rewrite table_eq. cbn [dinfos id]. destruct j as [|j]; cbn [lookup].
  - cbn. intros [= <-] [= <-] S. unfold ygood in G. unfold yfin. destruct (p_body a0); try done. subst ks. by rewrite read_anchor_first.
  - cbn. clear G. generalize (S k) as m. intros m. revert m j.
    induction IH as [|t ts Ht _ IH]; intros m j; [done|]. apply Forall_cons in Gs as [Gt Gs]. cbn [tables map concat].
    intros E1 E2. destruct (decide (j < dsize t)).
    + rewrite lookup_app_l in E1 by (by rewrite table_length). rewrite lookup_app_l in E2 by (by rewrite dinfos_length). by apply (Ht Gt _ _ _ _ _ _ E1 E2).
    + rewrite lookup_app_r, table_length in E1 by (rewrite table_length; lia). rewrite lookup_app_r, dinfos_length in E2 by (rewrite dinfos_length; lia). by apply (IH Gs _ _ E1 E2).
Qed.
