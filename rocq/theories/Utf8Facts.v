(** The validation accepts exactly UTF-8. *)
From Verif Require Import Base BaseFacts Storage Utf8Spec.
Local Open Scope list_scope.
Local Open Scope Z_scope.

Ltac zb := repeat match goal with
  | H : (_ && _)%bool = true |- _ => apply andb_prop in H; destruct H
  | H : (_ <? _) = true |- _ => apply Z.ltb_lt in H
  | H : (_ <? _) = false |- _ => apply Z.ltb_ge in H
  | H : (_ <=? _) = true |- _ => apply Z.leb_le in H
  | H : (_ <=? _) = false |- _ => apply Z.leb_gt in H
  | H : (_ =? _) = true |- _ => apply Z.eqb_eq in H
  | H : (_ =? _) = false |- _ => apply Z.eqb_neq in H
  end.

Lemma text_cons c l r : scalar c -> l = utf8_char c ++ r -> utf8_text r -> utf8_text l.
Proof. intros Hc -> (cs & F & ->). exists (c :: cs). split; [constructor; auto|reflexivity]. Qed.

Lemma char1 a : 0 <= a < 128 -> scalar a /\ utf8_char a = [a].
Proof. intros H. split; [unfold scalar; lia|]. unfold utf8_char. destruct (Z.ltb_spec a 128); auto; lia. Qed.

Lemma char2 a b : 194 <= a < 224 -> 128 <= b < 192 ->
  scalar ((a - 192) * 64 + (b - 128)) /\ utf8_char ((a - 192) * 64 + (b - 128)) = [a; b].
Proof.
  intros Ha Hb. set (c := (a - 192) * 64 + (b - 128)).
  assert (Q : c / 64 = a - 192 /\ c mod 64 = b - 128).
  { assert (c = 64 * (a - 192) + (b - 128)) by (unfold c; lia).
    split; [symmetry; eapply Z.div_unique with (b - 128)|symmetry; eapply Z.mod_unique with (a - 192)]; lia. }
  destruct Q as (Q1 & Q2).
  split; [unfold scalar, c; lia|]. unfold utf8_char.
  destruct (Z.ltb_spec c 128); [unfold c in *; lia|]. destruct (Z.ltb_spec c 2048); [|unfold c in *; lia].
  rewrite Q1, Q2. f_equal; [lia|]. f_equal. lia.
Qed.

Lemma char3 a b c : 224 <= a < 240 -> 128 <= b < 192 -> 128 <= c < 192 ->
  (a = 224 -> 160 <= b) -> (a = 237 -> b < 160) ->
  let x := (a - 224) * 4096 + (b - 128) * 64 + (c - 128) in scalar x /\ utf8_char x = [a; b; c].
Proof.
  intros Ha Hb Hc H1 H2 x.
  assert (Q1 : x mod 64 = c - 128) by (symmetry; apply Z.mod_unique with ((a - 224) * 64 + (b - 128)); unfold x; lia).
  assert (Q2 : x / 64 = (a - 224) * 64 + (b - 128)) by (symmetry; apply Z.div_unique with (c - 128); unfold x; lia).
  assert (Q3 : (x / 64) mod 64 = b - 128) by (rewrite Q2; symmetry; apply Z.mod_unique with (a - 224); lia).
  assert (Q4 : x / 4096 = a - 224) by (symmetry; apply Z.div_unique with ((b - 128) * 64 + (c - 128)); unfold x; lia).
  split; [unfold scalar, x; lia|]. unfold utf8_char.
  destruct (Z.ltb_spec x 128); [unfold x in *; lia|]. destruct (Z.ltb_spec x 2048); [unfold x in *; lia|].
  destruct (Z.ltb_spec x 65536); [|unfold x in *; lia].
  rewrite Q1, Q3, Q4. f_equal; [lia|]. f_equal; [lia|]. f_equal. lia.
Qed.

Lemma char4 a b c d : 240 <= a < 245 -> 128 <= b < 192 -> 128 <= c < 192 -> 128 <= d < 192 ->
  (a = 240 -> 144 <= b) -> (a = 244 -> b < 144) ->
  let x := (a - 240) * 262144 + (b - 128) * 4096 + (c - 128) * 64 + (d - 128) in scalar x /\ utf8_char x = [a; b; c; d].
Proof.
  intros Ha Hb Hc Hd H1 H2 x.
  assert (Q1 : x mod 64 = d - 128)
    by (symmetry; apply Z.mod_unique with ((a - 240) * 4096 + (b - 128) * 64 + (c - 128)); unfold x; lia).
  assert (Q2 : x / 64 = (a - 240) * 4096 + (b - 128) * 64 + (c - 128))
    by (symmetry; apply Z.div_unique with (d - 128); unfold x; lia).
  assert (Q3 : (x / 64) mod 64 = c - 128)
    by (rewrite Q2; symmetry; apply Z.mod_unique with ((a - 240) * 64 + (b - 128)); lia).
  assert (Q4 : x / 4096 = (a - 240) * 64 + (b - 128))
    by (symmetry; apply Z.div_unique with ((c - 128) * 64 + (d - 128)); unfold x; lia).
  assert (Q5 : (x / 4096) mod 64 = b - 128) by (rewrite Q4; symmetry; apply Z.mod_unique with (a - 240); lia).
  assert (Q6 : x / 262144 = a - 240)
    by (symmetry; apply Z.div_unique with ((b - 128) * 4096 + (c - 128) * 64 + (d - 128)); unfold x; lia).
  split; [unfold scalar, x; lia|]. unfold utf8_char.
  destruct (Z.ltb_spec x 128); [unfold x in *; lia|]. destruct (Z.ltb_spec x 2048); [unfold x in *; lia|].
  destruct (Z.ltb_spec x 65536); [unfold x in *; lia|].
  rewrite Q1, Q3, Q5, Q6. f_equal; [lia|]. f_equal; [lia|]. f_equal; [lia|]. f_equal. lia.
Qed.

Lemma utf8_ok_text n : forall l, (length l <= n)%nat -> bytes_ok l -> utf8_ok l = true -> utf8_text l.
Proof.
  induction n as [|n IH]; intros l Ln Hb H.
  - destruct l; [|simpl in Ln; lia]. exists []. split; [constructor|reflexivity].
  - destruct l as [|a r]; [exists []; split; [constructor|reflexivity]|]. cbn [utf8_ok] in H. simpl in Ln.
    inversion Hb as [|? ? Ba Br]; subst. unfold is_byte in Ba.
    destruct (a <? 128) eqn:E1.
    { zb. destruct (char1 a ltac:(lia)) as (S & C). eapply text_cons; [exact S|rewrite C; reflexivity|]. apply IH; auto. lia. }
    destruct ((194 <=? a) && (a <? 224)) eqn:E2.
    { destruct r as [|b r]; [discriminate|]. inversion Br as [|? ? Bb Br']; subst. unfold cont in H. zb.
      destruct (char2 a b ltac:(lia) ltac:(lia)) as (S & C). eapply text_cons; [exact S|rewrite C; reflexivity|].
      apply IH; auto. simpl in Ln. lia. }
    destruct ((224 <=? a) && (a <? 240)) eqn:E3.
    { destruct r as [|b [|c r]]; try discriminate. inversion Br as [|? ? Bb Br']; subst. inversion Br' as [|? ? Bc Br'']; subst.
      apply andb_prop in H. destruct H as (H & H3). apply andb_prop in H. destruct H as (H & H2).
      assert (Hb' : 128 <= b < 192 /\ (a = 224 -> 160 <= b) /\ (a = 237 -> b < 160)).
      { destruct (a =? 224) eqn:E4; [zb; lia|]. destruct (a =? 237) eqn:E5; unfold cont in *; zb; lia. }
      unfold cont in H2. zb.
      destruct (char3 a b c ltac:(lia) ltac:(lia) ltac:(lia) ltac:(lia) ltac:(lia)) as (S & C).
      eapply text_cons; [exact S|rewrite C; reflexivity|]. apply IH; auto. simpl in Ln. lia. }
    destruct ((240 <=? a) && (a <? 245)) eqn:E4; [|discriminate].
    destruct r as [|b [|c [|d r]]]; try discriminate.
    inversion Br as [|? ? Bb Br']; subst. inversion Br' as [|? ? Bc Br'']; subst. inversion Br'' as [|? ? Bd Br3]; subst.
    apply andb_prop in H. destruct H as (H & H4). apply andb_prop in H. destruct H as (H & H3).
    apply andb_prop in H. destruct H as (H & H2).
    assert (Hb' : 128 <= b < 192 /\ (a = 240 -> 144 <= b) /\ (a = 244 -> b < 144)).
    { destruct (a =? 240) eqn:E5; [zb; lia|]. destruct (a =? 244) eqn:E6; unfold cont in *; zb; lia. }
    unfold cont in H2, H3. zb.
    destruct (char4 a b c d ltac:(lia) ltac:(lia) ltac:(lia) ltac:(lia) ltac:(lia) ltac:(lia)) as (S & C).
    eapply text_cons; [exact S|rewrite C; reflexivity|]. apply IH; auto. simpl in Ln. lia.
Qed.


Lemma utf8_char_ok c r : scalar c -> utf8_ok (utf8_char c ++ r) = utf8_ok r.
Proof.
  intros Hc. unfold scalar in Hc. unfold utf8_char.
  destruct (Z.ltb_spec c 128) as [H1|H1].
  { cbn [app utf8_ok]. destruct (Z.ltb_spec c 128); [reflexivity|lia]. }
  destruct (Z.ltb_spec c 2048) as [H2|H2].
  { assert (A : 194 <= 192 + c / 64 < 224).
    { assert (2 <= c / 64) by (apply Z.div_le_lower_bound; lia). assert (c / 64 < 32) by (apply Z.div_lt_upper_bound; lia). lia. }
    pose proof (Z.mod_pos_bound c 64 ltac:(lia)).
    cbn [app utf8_ok]. unfold cont.
    replace (192 + c / 64 <? 128) with false by (symmetry; apply Z.ltb_ge; lia).
    replace (194 <=? 192 + c / 64) with true by (symmetry; apply Z.leb_le; lia).
    replace (192 + c / 64 <? 224) with true by (symmetry; apply Z.ltb_lt; lia).
    replace (128 <=? 128 + c mod 64) with true by (symmetry; apply Z.leb_le; lia).
    replace (128 + c mod 64 <? 192) with true by (symmetry; apply Z.ltb_lt; lia). reflexivity. }
  pose proof (Z.mod_pos_bound c 64 ltac:(lia)) as M0.
  pose proof (Z.mod_pos_bound (c / 64) 64 ltac:(lia)) as M1.
  pose proof (Z.mod_pos_bound (c / 4096) 64 ltac:(lia)) as M2.
  assert (D1 : c / 64 / 64 = c / 4096) by (rewrite Z.div_div by lia; reflexivity).
  assert (D2 : c / 4096 / 64 = c / 262144) by (rewrite Z.div_div by lia; reflexivity).
  pose proof (Z.div_mod c 64 ltac:(lia)) as E0. pose proof (Z.div_mod (c / 64) 64 ltac:(lia)) as E1. rewrite D1 in E1.
  pose proof (Z.div_mod (c / 4096) 64 ltac:(lia)) as E2. rewrite D2 in E2.
  set (x0 := c mod 64) in *. set (x1 := (c / 64) mod 64) in *. set (x2 := (c / 4096) mod 64) in *.
  set (y1 := c / 4096) in *. set (y2 := c / 262144) in *. set (y0 := c / 64) in *. clearbody x0 x1 x2 y0 y1 y2.
  destruct (Z.ltb_spec c 65536) as [H3|H3].
  - cbn [app utf8_ok]. unfold cont.
    replace (224 + y1 <? 128) with false by (symmetry; apply Z.ltb_ge; lia).
    replace (224 + y1 <? 224) with false by (symmetry; apply Z.ltb_ge; lia). rewrite andb_false_r.
    replace (224 <=? 224 + y1) with true by (symmetry; apply Z.leb_le; lia).
    replace (224 + y1 <? 240) with true by (symmetry; apply Z.ltb_lt; lia).
    replace (128 <=? 128 + x0) with true by (symmetry; apply Z.leb_le; lia).
    replace (128 + x0 <? 192) with true by (symmetry; apply Z.ltb_lt; lia).
    replace (128 <=? 128 + x1) with true by (symmetry; apply Z.leb_le; lia).
    replace (128 + x1 <? 192) with true by (symmetry; apply Z.ltb_lt; lia). cbn [andb].
    destruct (Z.eqb_spec (224 + y1) 224).
    { replace (160 <=? 128 + x1) with true by (symmetry; apply Z.leb_le; lia). reflexivity. }
    destruct (Z.eqb_spec (224 + y1) 237); [|reflexivity].
    replace (128 + x1 <? 160) with true by (symmetry; apply Z.ltb_lt; lia). reflexivity.
  - cbn [app utf8_ok]. unfold cont.
    replace (240 + y2 <? 128) with false by (symmetry; apply Z.ltb_ge; lia).
    replace (240 + y2 <? 224) with false by (symmetry; apply Z.ltb_ge; lia). rewrite andb_false_r.
    replace (240 + y2 <? 240) with false by (symmetry; apply Z.ltb_ge; lia). rewrite andb_false_r.
    replace (240 <=? 240 + y2) with true by (symmetry; apply Z.leb_le; lia).
    replace (240 + y2 <? 245) with true by (symmetry; apply Z.ltb_lt; lia).
    replace (128 <=? 128 + x0) with true by (symmetry; apply Z.leb_le; lia).
    replace (128 + x0 <? 192) with true by (symmetry; apply Z.ltb_lt; lia).
    replace (128 <=? 128 + x1) with true by (symmetry; apply Z.leb_le; lia).
    replace (128 + x1 <? 192) with true by (symmetry; apply Z.ltb_lt; lia).
    replace (128 <=? 128 + x2) with true by (symmetry; apply Z.leb_le; lia).
    replace (128 + x2 <? 192) with true by (symmetry; apply Z.ltb_lt; lia). cbn [andb].
    destruct (Z.eqb_spec (240 + y2) 240).
    { replace (144 <=? 128 + x2) with true by (symmetry; apply Z.leb_le; lia). reflexivity. }
    destruct (Z.eqb_spec (240 + y2) 244); [|reflexivity].
    replace (128 + x2 <? 144) with true by (symmetry; apply Z.ltb_lt; lia). reflexivity.
Qed.

Lemma utf8_exact l : bytes_ok l -> utf8_ok l = true <-> utf8_text l.
Proof.
  intros Hb. split; [apply (utf8_ok_text (length l)); auto|].
  intros (cs & F & ->). clear Hb. induction F as [|c cs Hc F IH]; [reflexivity|].
  cbn [map concat]. rewrite utf8_char_ok; auto.
Qed.
