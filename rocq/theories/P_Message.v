(** C88: messages of the library (src/mr_message.c:11-136). *)
From Coq Require Import Ascii String.
From stdpp Require Import list sets.
From Verif Require Import Base Message.
Local Open Scope Z_scope.

(** *** The statements' own vocabulary *)
Definition level_names : list (Z * list Z) :=
  [(0, lit "ALL"); (1, lit "TRACE"); (2, lit "DEBUG"); (3, lit "INFO"); (4, lit "WARN"); (5, lit "ERROR"); (6, lit "FATAL"); (7, lit "OFF")].
Definition is_name (level : Z) (name : list Z) : Prop :=
  (level, name) ∈ level_names \/ (7 < level /\ name = lit "Unknown").
(** The format of message [id]: the meta data of its enumerator, if the type is known. *)
Definition is_format (td : option (list (Z * option (list Z)))) (id : Z) (f : list Z) : Prop :=
  (exists enums, td = Some enums /\ (id, Some f) ∈ enums) \/
  (f = lit "Unknown MR_MESSAGE_ID." /\ forall enums g, td = Some enums -> ~ (id, Some g) ∈ enums).
Definition right_outcome (c : call) (o : outcome) : Prop :=
  if handler c then o = Handled
  else if level c <? conf c then o = Silent
  else exists name f, is_name (level c) name /\ is_format (td c) (id c) f /\
    ((exists text, pr c f = Some text /\ text <> [] /\ al c = true /\ o = Line name text) \/
     ((pr c f = None \/ pr c f = Some [] \/ al c = false) /\ o = OutOfMemory name (id c))).

(** What calls must meet: the type has enumerators up to the last one, and once found it is found again; numbers and
    levels are not those behind the last ones. *)
Definition good_enums (last : Z) (enums : list (Z * option (list Z))) : Prop :=
  NoDup (map fst enums) /\ Forall (fun e => 0 <= fst e <= last) enums.
Fixpoint good_calls (last : Z) (enums : list (Z * option (list Z))) (calls : list call) : Prop :=
  match calls with
  | [] => True
  | c :: calls => (td c = None \/ (td c = Some enums /\ Forall (fun c => td c = Some enums) calls)) /\
      0 <= id c /\ id c <> last + 1 /\ 0 <= level c < 2 ^ 32 /\ level c <> 8 /\ good_calls last enums calls
  end.

Lemma level_name_ok level : 0 <= level < 2 ^ 32 -> level <> 8 -> exists name, level_name level = Some name /\ is_name level name.
Proof.
  intros L N. unfold level_name. change (Z.of_nat (length log_level_str)) with 8.
  destruct (Z.ltb_spec level (2 ^ 31)); cbn [andb]; [destruct (Z.leb_spec level 8)|].
  - assert (level = 0 \/ level = 1 \/ level = 2 \/ level = 3 \/ level = 4 \/ level = 5 \/ level = 6 \/ level = 7) as H1 by lia.
    destruct_or! H1; subst level; eexists; (split; [reflexivity|left; unfold level_names; set_solver]).
  - eexists. split; [done|]. right. split; [lia|done].
  - eexists. split; [done|]. right. split; [lia|done].
Qed.

(** The table holds what the enumerators say. *)
Definition table_of (last : Z) (enums : list (Z * option (list Z))) (tbl : list (option (list Z))) : Prop :=
  length tbl = Z.to_nat (last + 1) /\ forall k m, 0 <= k -> tbl !! Z.to_nat k = Some (Some m) <-> (k, Some m) ∈ enums.

Lemma fill_ok last enums : 0 <= last -> forall tbl done_, length tbl = Z.to_nat (last + 1) ->
  (forall k m, 0 <= k -> tbl !! Z.to_nat k = Some (Some m) <-> (k, Some m) ∈ done_) ->
  good_enums last (done_ ++ enums) -> exists tbl', fill tbl enums = Some tbl' /\ table_of last (done_ ++ enums) tbl'.
Proof.
  intros L0. induction enums as [|[v meta] enums IH]; intros tbl dn L H [ND F]; cbn [fill].
  - rewrite app_nil_r. exists tbl. split; [done|]. by split.
  - assert (V : 0 <= v <= last). { apply Forall_app in F as [_ F]. by inversion F. }
    destruct (Z.ltb_spec v 0); [lia|]. rewrite wr_Some by lia. cbn [mbind option_bind].
    destruct (IH (<[Z.to_nat v := meta]> tbl) (dn ++ [(v, meta)])) as (tbl' & -> & H').
    + by rewrite insert_length.
    + intros k m K. rewrite elem_of_app, elem_of_list_singleton. destruct (decide (k = v)) as [->|Nk].
      * rewrite list_lookup_insert by lia. split; [intros E; right; congruence|]. intros [Hin|?]; [|congruence].
        exfalso. rewrite map_app in ND. apply NoDup_app in ND as (_ & ND & _). apply (ND v); [|cbn; set_solver].
        apply elem_of_list_In. apply in_map_iff. exists (v, Some m). split; [done|by apply elem_of_list_In].
      * rewrite list_lookup_insert_ne by lia. rewrite H by done. split; [by left|]. intros [?|?]; [done|congruence].
    + rewrite <- app_assoc. cbn. by split.
    + exists tbl'. split; [done|]. by rewrite <- app_assoc in H'.
Qed.

Definition good_state (last : Z) (enums : list (Z * option (list Z))) (s : msgs) : Prop :=
  length (messages s) = Z.to_nat (last + 1) /\
  if inited s then table_of last enums (messages s) else messages s = replicate (Z.to_nat (last + 1)) None.

Lemma format_ok last enums al p td s id : 0 <= last -> good_enums last enums -> good_state last enums s ->
  (td = None \/ td = Some enums) -> (inited s = true -> td = Some enums) -> 0 <= id -> id <> last + 1 ->
  exists f s', message_format al p td s id = Some (vasprintf al p f, s') /\ is_format td id f /\ good_state last enums s' /\
    (inited s' = true -> td = Some enums).
Proof.
  intros L0 G S0 Htd Hin I1 I2. unfold message_format.
  set (init := if inited s then Some s else _).
  assert (E : exists s', init = Some s' /\ good_state last enums s' /\ (inited s' = true -> td = Some enums) /\ (td = Some enums -> inited s' = true)).
  { subst init. destruct S0 as [Ls S0]. destruct (inited s) eqn:Ei.
    - exists s. rewrite Ei. split; [done|]. split; [split; [done|by rewrite Ei]|]. auto.
    - destruct Htd as [->| ->].
      + exists s. rewrite Ei. split; [done|]. split; [split; [done|by rewrite Ei]|]. split; [done|congruence].
      + destruct (fill_ok last enums L0 (messages s) []) as (tbl & -> & T); [done| |done|].
        { intros k m K. rewrite S0. split; [|by intros ?%elem_of_nil]. intros E%lookup_replicate. by destruct E. }
        cbn [mbind option_bind]. eexists. split; [done|]. split; [split; [apply T|exact T]|]. auto. }
  destruct E as (s' & -> & S' & I3 & I4). cbn [mbind option_bind]. destruct S' as [Ls S'].
  assert (Ef : exists o, (if id <=? Z.of_nat (length (messages s')) then rd (messages s') (Z.to_nat id) else Some None) = Some o /\
     match o with Some f => exists enums, td = Some enums /\ (id, Some f) ∈ enums | None => forall enums g, td = Some enums -> ~ (id, Some g) ∈ enums end).
  { assert (Out : last < id -> forall enums g, td = Some enums -> ~ (id, Some g) ∈ enums).
    { intros K en g E Hg. assert (en = enums) as -> by (destruct Htd; congruence). destruct G as [_ G]. rewrite Forall_forall in G. specialize (G _ Hg). cbn in G. lia. }
    rewrite Ls. destruct (Z.leb_spec id (Z.of_nat (Z.to_nat (last + 1)))); [|exists None; split; [done|]; apply Out; lia].
    destruct (lookup_lt_is_Some_2 (messages s') (Z.to_nat id)) as [o Eo]; [lia|]. rewrite (rd_lu _ _ _ Eo). exists o. split; [done|].
    destruct (inited s') eqn:Ei.
    - rewrite (I3 eq_refl). destruct S' as [_ S']. destruct o as [f|].
      + exists enums. split; [done|]. by apply S'.
      + intros en g [= <-] Hg. apply S' in Hg; [|done]. congruence.
    - rewrite S' in Eo. apply lookup_replicate in Eo as [-> _]. intros en g E. assert (en = enums) as -> by (destruct Htd; congruence). specialize (I4 E). congruence. }
  destruct Ef as (o & -> & Ho). cbn [mbind option_bind]. destruct o as [f|].
  - exists f, s'. split; [done|]. split; [by left|]. split; [by split|]. done.
  - eexists _, s'. split; [done|]. split; [right; by split|]. split; [by split|]. done.
Qed.

(** C88: every call does what it should. *)
Theorem C88_messages : forall last enums calls, 0 <= last -> good_enums last enums -> good_calls last enums calls ->
  exists os s, run (msgs0 last) calls = Some (os, s) /\ Forall2 right_outcome calls os.
Proof.
  intros last enums calls L0 G. assert (S0 : good_state last enums (msgs0 last)) by (split; [apply replicate_length|done]).
  assert (I0 : inited (msgs0 last) = true -> Forall (fun c => td c = Some enums) calls) by done.
  revert S0 I0. generalize (msgs0 last). induction calls as [|c calls IH]; intros s S0 I0 H; cbn [run].
  - eexists _, _. by split.
  - destruct H as (Ht & Hi1 & Hi2 & Hl1 & Hl2 & H). 
    assert (Step : exists o s', message (handler c) (conf c) (al c) (pr c) (td c) s (level c) (id c) = Some (o, s') /\ right_outcome c o /\ good_state last enums s' /\
      (inited s' = true -> Forall (fun c => td c = Some enums) calls)).
    { assert (I1 : inited s = true -> Forall (fun c => td c = Some enums) calls). { intros E. specialize (I0 E). by inversion I0. }
      unfold message, right_outcome. destruct (handler c); [by eauto 6|]. rewrite Z.ltb_antisym. destruct (Z.leb_spec (conf c) (level c)); cbn [negb]; [|by eauto 6].
      destruct (level_name_ok (level c)) as (name & -> & Hn); [done|done|]. cbn [mbind option_bind].
      destruct (format_ok last enums (al c) (pr c) (td c) s (id c)) as (f & s' & -> & Hf & S' & I'); [done|done|done|destruct Ht as [?|[? _]]; auto| |done|done|].
      { intros E. specialize (I0 E). by inversion I0. }
      cbn [mbind option_bind]. eexists _, s'. split; [done|]. split; [|split; [done|]].
      - exists name, f. split; [done|]. split; [done|]. unfold vasprintf. destruct (pr c f) as [[|x text]|]; [right; auto| |right; auto].
        destruct (al c); [|right; auto]. left. eauto.
      - intros E. specialize (I' E). destruct Ht as [?|[_ ?]]; [congruence|done]. }
    destruct Step as (o & s' & -> & Ho & S' & I'). cbn [mbind option_bind]. destruct (IH s' S' I' H) as (os & s2 & -> & Hos). cbn [mbind option_bind].
    eexists _, _. split; [done|]. by constructor.
Qed.
Print Assumptions C88_messages.

(** The number behind the last message is taken for one of the table. *)
Theorem C88_last_refuted : forall last enums al p, 0 <= last -> good_enums last enums ->
  message_format al p (Some enums) (msgs0 last) (last + 1) = None.
Proof.
  intros last enums al p L0 G. unfold message_format. cbn [inited messages msgs0].
  destruct (fill_ok last enums L0 (replicate (Z.to_nat (last + 1)) None) []) as (tbl & -> & [T _]).
  { apply replicate_length. } { intros k m K. split; [|by intros ?%elem_of_nil]. intros E%lookup_replicate. by destruct E. } { done. }
  cbn [mbind option_bind messages]. destruct (Z.leb_spec (last + 1) (Z.of_nat (length tbl))); [|lia].
  unfold rd. by rewrite lookup_ge_None_2 by lia.
Qed.
Print Assumptions C88_last_refuted.
(** So is the level behind the last one, and a message whose text is empty is reported as lack of memory. *)
Theorem C88_level_refuted : forall conf al p td s id, conf <= 8 -> message false conf al p td s 8 id = None.
Proof. intros conf al p td s id H. unfold message. destruct (Z.leb_spec conf 8); [done|lia]. Qed.
Print Assumptions C88_level_refuted.
Theorem C88_empty_refuted : exists last enums c, good_enums last enums /\ good_calls last enums [c] /\ al c = true /\
  pr c (lit "%s") = Some [] /\ (id c, Some (lit "%s")) ∈ enums /\
  exists s, run (msgs0 last) [c] = Some ([OutOfMemory (lit "ERROR") (id c)], s).
Proof.
  exists 1, [(0, Some (lit "Out of memory.")); (1, Some (lit "%s"))].
  exists (Call false 5 true (fun f => if decide (f = lit "%s") then Some [] else Some f) (Some [(0, Some (lit "Out of memory.")); (1, Some (lit "%s"))]) 5 1).
  split; [split; [repeat constructor; set_solver|repeat constructor; cbn; lia]|]. split; [cbn; repeat split; try lia; right; by split|].
  split; [done|]. split; [done|]. split; [set_solver|]. eexists. vm_compute. reflexivity.
Qed.
Print Assumptions C88_empty_refuted.

(** A table of two messages: before the type is known, a silent call, and one with its format. *)
Example C88_case : let enums := [(0, Some (lit "Out of memory.")); (1, Some (lit "Last message ID."))] in
  let calls := [Call false 5 true Some None 5 0; Call false 5 true Some (Some enums) 4 0; Call false 5 true Some (Some enums) 6 0; Call false 5 false Some (Some enums) 7 1] in
  good_enums 1 enums /\ good_calls 1 enums calls /\
  exists s, run (msgs0 1) calls = Some ([Line (lit "ERROR") (lit "Unknown MR_MESSAGE_ID."); Silent; Line (lit "FATAL") (lit "Out of memory."); OutOfMemory (lit "OFF") 1], s).
Proof.
  split; [split; [repeat constructor; set_solver|repeat constructor; cbn; lia]|]. split; [cbn; repeat split; try lia; first [by left|right; split; [done|repeat constructor]]|].
  eexists. vm_compute. reflexivity.
Qed.
