(** C23, C24: XML text escaping (src/xml_save.c:27-151). *)
From Verif Require Import Base NumStr NumStrProof Quote QuoteProof XmlQuote XmlQuoteProof.
Local Open Scope Z_scope.

(** C23: text written between tags is read back, and contains no angle bracket and no double quote. *)
Theorem C23_xml_text_round_trip : forall isprint s rest,
  Forall (fun c => 1 <= c < 256) s ->
  xml_read (xml_quote isprint s ++ 60 :: rest) = Some s /\
  Forall (fun x => x <> 60 /\ x <> 62 /\ x <> 34) (xml_quote isprint s).
Proof.
  intros ip s rest H.
  assert (Forall is_byte s) by (eapply Forall_impl; [exact H|]; unfold is_byte; intros; lia).
  split; [by apply xml_round_trip|by apply xml_quoted_chars].
Qed.
Print Assumptions C23_xml_text_round_trip.

(** ESC, "&amp;" verbatim, angle brackets, quote, newline, byte 200, "#x41;". *)
Example C23_case :
  xml_read (xml_quote (fun c => (32 <=? c) && (c <=? 126)) [27; 38; 97; 109; 112; 59; 60; 62; 34; 10; 200; 35; 120; 52; 49; 59] ++ [60; 47]) =
    Some [27; 38; 97; 109; 112; 59; 60; 62; 34; 10; 200; 35; 120; 52; 49; 59].
Proof. by vm_compute. Qed.

(** C23: any text made of plain characters, the four names in upper or lower case, and
    references with one or two hexadecimal digits of either case is read as the
    characters they stand for. *)
Theorem C23_xml_decode : forall us cs rest, Forall2 xml_unit us cs -> xml_read (concat us ++ 60 :: rest) = Some cs.
Proof. intros us cs rest. apply xml_units_read. Qed.
Print Assumptions C23_xml_decode.

(** "a&Lt;&QUOT;&#xaF;&#x9;<": the parts are of the shape required and are read. *)
Example C23_decode_case : exists us,
  Forall2 xml_unit us [97; 60; 34; 175; 9] /\
  concat us = [97; 38;76;116;59; 38;81;85;79;84;59; 38;35;120;97;70;59; 38;35;120;57;59] /\
  xml_read (concat us ++ [60]) = Some [97; 60; 34; 175; 9].
Proof.
  exists [[97]; 38 :: [76;116] ++ [59]; 38 :: [81;85;79;84] ++ [59]; [38;35;120;97;70;59]; [38;35;120;57;59]].
  split; [|split; [done|by vm_compute]].
  constructor; [by apply xu_char|]. constructor; [eapply xu_name; [done|right; left]|].
  constructor; [eapply xu_name; [done|right; right; right; left]|].
  constructor; [by apply (xu_two 97 70)|]. constructor; [by apply (xu_one 57)|constructor].
Qed.

(** C24: on text whose escapes are closed the unquote loop terminates and
    stores at most as many characters as the text has. *)
Theorem C24_xml_unquote_terminates : forall text n,
  (n < length text)%nat ->
  (forall i, (i < n)%nat -> text !! i = Some 38 ->
    (exists j c, (j < 9)%nat /\ text !! (i + j)%nat = Some c /\ (c = 59 \/ c = 0)) /\
    (forall t, drop (S i) text = 35 :: 120 :: t ->
       (exists ds r, t = ds ++ 59 :: r /\ (length ds = 1%nat \/ length ds = 2%nat) /\ Forall (fun c => digit_val c < 16) ds) \/
       (forall c, head t = Some c -> isspace c = false /\ c <> 43 /\ c <> 45 /\ 16 <= digit_val c))) ->
  exists r, xml_loop (S n) text n 0 = Some r /\ (length r <= n)%nat.
Proof.
  intros text n H W. destruct (xml_terminates text n W H (S n) 0 ltac:(lia)) as (r & E & L). exists r. split; [done|lia].
Qed.
Print Assumptions C24_xml_unquote_terminates.

(** "&bogus;&#xzz;&#x4;!<": unknown names and codes are let through or dropped. *)
Example C24_case :
  xml_loop 21 [38; 98; 111; 103; 117; 115; 59; 38; 35; 120; 122; 122; 59; 38; 35; 120; 52; 59; 33; 60] 19 0 =
    Some [38; 98; 111; 103; 117; 115; 59; 35; 120; 122; 122; 59; 4; 33].
Proof. by vm_compute. Qed.

(** C24 is false in general: on "&#x41,;" the position never advances while a
    character is stored every time, so the loop does not end and writes past
    any buffer. *)
Theorem C24_xml_unquote_loops_refuted : exists text n, (n < length text)%nat /\
  (forall fuel, xml_loop fuel text n 0 = None) /\ xml_step text 0 = Some ([65], 0%nat).
Proof.
  exists ([38; 35; 120; 52; 49; 44; 59] ++ [60]), 7%nat. split; [cbn; lia|]. split; [apply xml_loops_forever|by vm_compute].
Qed.
Print Assumptions C24_xml_unquote_loops_refuted.

(** C24: nine bytes without a semicolon after '&' overrun the local array. *)
Theorem C24_xml_unquote_overrun_refuted : exists text, text !! 0%nat = Some 38 /\ xml_step text 0 = None /\
  text = [38; 97; 98; 99; 100; 101; 102; 103; 104; 105; 60].
Proof. eexists. split; [|split; [|reflexivity]]; by vm_compute. Qed.
Print Assumptions C24_xml_unquote_overrun_refuted.
