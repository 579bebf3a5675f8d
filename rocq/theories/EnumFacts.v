(** Proofs about structs with enum fields. *)
From Verif Require Import Base BaseFacts Codec CodecSpec CodecFacts Structs StructsSpec StructsFacts Enums.

(** Specification: the integer a field holds, and whether the field may be
    read at all. *)
Definition code_of (f : efield) (m : list Z) : Z :=
  field_value (f_prim (fst f)) m (f_off (fst f)) (f_bits (fst f)).
Definition declared (f : efield) (m : list Z) : Prop :=
  match snd f with None => True | Some (_, codes) => In (code_of f m) codes end.

(** The program's [impl Int] is good enough for the declared discriminants. *)
Definition sign_ok (f : efield) : Prop :=
  match snd f with
  | None => True
  | Some (sg, codes) => sg = true \/ Forall (fun v => 0 <= v) codes
  end.

Lemma declared_dec f m : {declared f m} + {~ declared f m}.
Proof.
  unfold declared. destruct (snd f) as [[sg codes]|]; [|now left]. apply in_dec, Z.eq_dec.
Qed.

Lemma get_efield_ok b e s f m : bytes_ok m -> wf_field (s_size s) (fst f) -> s_size s <= len m ->
  get_efield b e f m = if declared_dec f m then Ret (code_of f m) else UB.
Proof.
  intros Hm Hf Hl. unfold get_efield, get_enum.
  destruct (declared_dec f m) as [D|D]; unfold declared, code_of in *;
    destruct (snd f) as [[sg codes]|]; try tauto;
    rewrite (get_field_ok b e s) by auto; simpl; auto.
  - replace (existsb _ codes) with true; auto. symmetry. apply existsb_exists.
    eexists. split; [exact D|]. apply Z.eqb_refl.
  - destruct (existsb _ codes) eqn:Ex; auto. apply existsb_exists in Ex as (x & Hx & Exx).
    apply Z.eqb_eq in Exx. subst. contradiction.
Qed.

Lemma write_bytes_sign b e t t' v data off nb :
  is_signed t = is_signed t' \/ 0 <= v < 2 ^ nb /\ 0 <= nb <= 64 ->
  write_bytes b e t v data off nb = write_bytes b e t' v data off nb.
Proof.
  intros H. unfold write_bytes.
  assert (E : (if is_signed t then masked (u64 v) nb else u64 v)
            = (if is_signed t' then masked (u64 v) nb else u64 v)).
  { destruct H as [->|[Hv Hb]]; auto.
    assert (masked (u64 v) nb = u64 v) as ->.
    { assert (2 ^ nb <= 2 ^ 64) by (apply Z.pow_le_mono_r; lia).
      unfold u64. rewrite (Z.mod_small v) by lia.
      apply Z.bits_inj'. intros j Hj. rewrite masked_testbit by lia.
      destruct (Z.ltb_spec j nb); cbn; auto.
      symmetry. apply (testbit_small v nb); lia. }
    now destruct (is_signed t), (is_signed t'). }
  cbv zeta. now rewrite E.
Qed.

Lemma set_field_sign b e s f t v m :
  is_signed t = is_signed (f_prim f) \/ 0 <= v < 2 ^ f_bits f /\ 0 <= f_bits f <= 64 ->
  set_field b e s (mkField t (f_off f) (f_bits f)) v m = set_field b e s f v m.
Proof.
  intros H. unfold set_field. cbn [f_prim f_off f_bits]. destruct (_ <=? _); auto.
  now rewrite (write_bytes_sign b e t (f_prim f)) by auto.
Qed.

(** A setter call with a value the enum declares. *)
Definition may_set (f : efield) (v : Z) : Prop :=
  match snd f with None => True | Some (_, codes) => In v codes end.

Lemma in_range_nonneg t nb v : 1 <= nb -> in_range t nb v -> 0 <= v -> 0 <= v < 2 ^ nb.
Proof.
  intros Hb Hr Hv. assert (2 ^ (nb - 1) <= 2 ^ nb) by (apply Z.pow_le_mono_r; lia).
  assert (2 ^ 1 <= 2 ^ nb) by (apply Z.pow_le_mono_r; lia).
  unfold in_range in Hr. destruct t; cbn in Hr; lia.
Qed.

Lemma in_range_unsigned t nb v : is_signed t = false -> in_range t nb v -> 0 <= v.
Proof. intros E Hr. unfold in_range in Hr. destruct t; cbn in *; try discriminate; lia. Qed.

Theorem set_efield_plain b e s f v m : wf_field (e_size s) (fst f) ->
  sign_ok f -> may_set f v -> in_range (f_prim (fst f)) (f_bits (fst f)) v ->
  set_efield b e s f v m = set_field b e (plain s) (fst f) v m.
Proof.
  intros Hf Hs Hv Hr. unfold set_efield. apply set_field_sign.
  destruct Hf as (_ & Hb & _). pose proof (width_cases (f_prim (fst f))).
  unfold write_type, sign_ok, may_set in *. destruct (snd f) as [[sg codes]|]; [|now left].
  destruct (is_signed (f_prim (fst f))) eqn:Es.
  - destruct sg; [now left|]. right. split; [|lia].
    destruct Hs as [Hs|Hs]; [discriminate|]. rewrite Forall_forall in Hs.
    apply (in_range_nonneg (f_prim (fst f))); auto; lia.
  - right. split; [|lia]. apply (in_range_nonneg (f_prim (fst f))); auto; try lia.
    now apply (in_range_unsigned (f_prim (fst f)) (f_bits (fst f))).
Qed.

(** Reading all fields. *)
Lemma get_efields_ok b e s fs m : bytes_ok m -> s_size s <= len m ->
  Forall (fun f => wf_field (s_size s) (fst f)) fs ->
  (Forall (fun f => declared f m) fs -> get_efields b e fs m = Ret (map (fun f => code_of f m) fs)) /\
  (Exists (fun f => ~ declared f m) fs -> get_efields b e fs m = UB).
Proof.
  intros Hm Hl. induction 1 as [|f fs Hf Hfs [IHr IHu]]; split; simpl; intros H.
  - reflexivity.
  - inversion H.
  - inversion H; subst. rewrite (get_efield_ok b e s) by auto.
    destruct (declared_dec f m); [|contradiction]. simpl. now rewrite IHr.
  - rewrite (get_efield_ok b e s) by auto. destruct (declared_dec f m); auto. simpl.
    inversion H; subst; [contradiction|]. now rewrite IHu.
Qed.

Lemma wf_plain s : wf_struct (plain s) ->
  Forall (fun f => wf_field (s_size (plain s)) (fst f)) (e_fields s).
Proof.
  intros (_ & H & _). cbn [s_fields plain] in H. rewrite Forall_map in H. exact H.
Qed.

Lemma decode_plain s m : decode (plain s) m = map (fun f => code_of f m) (e_fields s).
Proof. unfold decode, plain. cbn [s_fields]. rewrite map_map. reflexivity. Qed.

Theorem get_enums_exact b e s m : wf_struct (plain s) -> bytes_ok m -> e_size s <= len m ->
  (Forall (fun f => declared f m) (e_fields s) -> get_enums b e s m = Ret (decode (plain s) m)) /\
  (Exists (fun f => ~ declared f m) (e_fields s) -> get_enums b e s m = UB).
Proof.
  intros Hw Hm Hl. rewrite decode_plain.
  apply (get_efields_ok b e (plain s)); auto. now apply wf_plain.
Qed.

(** Equality: what stops the comparison. *)
Definition agree (fs : list efield) (m1 m2 : list Z) : Prop :=
  Forall (fun f => declared f m1 /\ declared f m2 /\ code_of f m1 = code_of f m2) fs.

Lemma eq_efields_cases b e s fs m1 m2 : bytes_ok m1 -> bytes_ok m2 ->
  s_size s <= len m1 -> s_size s <= len m2 ->
  Forall (fun f => wf_field (s_size s) (fst f)) fs ->
  (agree fs m1 m2 /\ eq_efields b e fs m1 m2 = Ret true) \/
  (exists l f r, fs = l ++ f :: r /\ agree l m1 m2 /\ declared f m1 /\ declared f m2 /\
     code_of f m1 <> code_of f m2 /\ eq_efields b e fs m1 m2 = Ret false) \/
  (exists l f r, fs = l ++ f :: r /\ agree l m1 m2 /\ ~ (declared f m1 /\ declared f m2) /\
     eq_efields b e fs m1 m2 = UB).
Proof.
  intros H1 H2 L1 L2. induction 1 as [|f fs Hf Hfs IH]; simpl.
  - left. split; [constructor|reflexivity].
  - rewrite !(get_efield_ok b e s) by auto.
    destruct (declared_dec f m1) as [D1|D1]; [|right; right; exists [], f, fs; simpl; repeat split; auto;
      [constructor | tauto]].
    simpl. destruct (declared_dec f m2) as [D2|D2]; [|right; right; exists [], f, fs; simpl; repeat split; auto;
      [constructor | tauto]].
    simpl. destruct (Z.eqb_spec (code_of f m1) (code_of f m2)) as [E|E].
    + destruct IH as [[A R]|[(l & g & r & -> & A & X)|(l & g & r & -> & A & X)]].
      * left. split; auto. constructor; auto.
      * right. left. exists (f :: l), g, r. simpl. split; auto. split; [constructor; auto|auto].
      * right. right. exists (f :: l), g, r. simpl. split; auto. split; [constructor; auto|auto].
    + right. left. exists [], f, fs. simpl. repeat split; auto. constructor.
Qed.

Lemma agree_stop l f r l' f' r' m1 m2 : l ++ f :: r = l' ++ f' :: r' ->
  agree l m1 m2 -> agree l' m1 m2 ->
  ~ (declared f m1 /\ declared f m2 /\ code_of f m1 = code_of f m2) ->
  ~ (declared f' m1 /\ declared f' m2 /\ code_of f' m1 = code_of f' m2) -> f = f'.
Proof.
  intros E A A' N N'. revert l' E A'.
  induction A as [|x l Hx A IH]; intros [|y l'] E A'; simpl in E; inversion E; subst; auto.
  - inversion A'; subst. contradiction.
  - contradiction.
  - inversion A'; subst. eauto.
Qed.

Lemma app_inv_len {A} (a c b d : list A) : length a = length c -> a ++ b = c ++ d -> b = d.
Proof.
  revert c. induction a as [|x a IH]; intros [|y c] L E; simpl in *; try discriminate; auto.
  injection E as _ E. eauto.
Qed.

Section EqExact.
Context (b : build) (e : endian) (s : edesc) (m1 m2 : list Z)
  (Hw : wf_struct (plain s)) (H1 : bytes_ok m1) (H2 : bytes_ok m2)
  (L1 : e_size s <= len m1) (L2 : e_size s <= len m2).

Theorem eq_enums_true :
  eq_enums b e s m1 m2 = Ret true <-> agree (e_fields s) m1 m2.
Proof.
  destruct (eq_efields_cases b e (plain s) (e_fields s) m1 m2 H1 H2 L1 L2 (wf_plain s Hw))
    as [[A R]|[(l & f & r & Ef & A & D1 & D2 & N & R)|(l & f & r & Ef & A & D & R)]];
    unfold eq_enums; rewrite R; split; auto; try discriminate; intros A'; exfalso;
    rewrite Ef in A'; apply Forall_app in A' as [_ A']; inversion A'; subst; tauto.
Qed.

Theorem eq_enums_false :
  eq_enums b e s m1 m2 = Ret false <->
  exists l f r, e_fields s = l ++ f :: r /\ agree l m1 m2 /\ declared f m1 /\ declared f m2 /\
    code_of f m1 <> code_of f m2.
Proof.
  destruct (eq_efields_cases b e (plain s) (e_fields s) m1 m2 H1 H2 L1 L2 (wf_plain s Hw))
    as [[A R]|[(l & f & r & Ef & A & D1 & D2 & N & R)|(l & f & r & Ef & A & D & R)]];
    unfold eq_enums; rewrite R; split; try discriminate.
  - intros (l & f & r & Ef & _ & _ & _ & N). rewrite Ef in A. apply Forall_app in A as [_ A].
    inversion A; subst. tauto.
  - intros _. exists l, f, r. auto.
  - auto.
  - intros (l' & f' & r' & Ef' & A' & D1' & D2' & N'). exfalso.
    assert (f = f') as -> by (apply (agree_stop l f r l' f' r' m1 m2); [exact (eq_trans (eq_sym Ef) Ef') | assumption | assumption | tauto | tauto]).
    tauto.
Qed.

Theorem eq_enums_ub :
  eq_enums b e s m1 m2 = UB <->
  exists l f r, e_fields s = l ++ f :: r /\ agree l m1 m2 /\ ~ (declared f m1 /\ declared f m2).
Proof.
  destruct (eq_efields_cases b e (plain s) (e_fields s) m1 m2 H1 H2 L1 L2 (wf_plain s Hw))
    as [[A R]|[(l & f & r & Ef & A & D1 & D2 & N & R)|(l & f & r & Ef & A & D & R)]];
    unfold eq_enums; rewrite R; split; try discriminate; auto.
  - intros (l & f & r & Ef & _ & D). rewrite Ef in A. apply Forall_app in A as [_ A].
    inversion A; subst. tauto.
  - intros (l' & f' & r' & Ef' & A' & D'). exfalso.
    assert (f = f') as -> by (apply (agree_stop l f r l' f' r' m1 m2); [exact (eq_trans (eq_sym Ef) Ef') | assumption | assumption | tauto | tauto]).
    tauto.
  - intros _. exists l, f, r. auto.
Qed.

Theorem eq_enums_panic : eq_enums b e s m1 m2 <> Panic.
Proof.
  destruct (eq_efields_cases b e (plain s) (e_fields s) m1 m2 H1 H2 L1 L2 (wf_plain s Hw))
    as [[A R]|[(l & f & r & Ef & A & D1 & D2 & N & R)|(l & f & r & Ef & A & D & R)]];
    unfold eq_enums; rewrite R; discriminate.
Qed.

Theorem eq_enums_declared :
  Forall (fun f => declared f m1) (e_fields s) -> Forall (fun f => declared f m2) (e_fields s) ->
  exists r, eq_enums b e s m1 m2 = Ret r /\
    (r = true <-> decode (plain s) m1 = decode (plain s) m2).
Proof.
  intros D1 D2.
  destruct (eq_efields_cases b e (plain s) (e_fields s) m1 m2 H1 H2 L1 L2 (wf_plain s Hw))
    as [[A R]|[(l & f & r & Ef & A & _ & _ & N & R)|(l & f & r & Ef & A & D & R)]];
    unfold eq_enums; rewrite R; rewrite ?decode_plain.
  - exists true. split; auto. split; auto. intros _. clear - A. induction A; simpl; auto.
    f_equal; tauto.
  - exists false. split; auto. split; [discriminate|]. intros E. exfalso. apply N.
    rewrite Ef, !map_app in E.
    assert (EL : length (map (fun f => code_of f m1) l) = length (map (fun f => code_of f m2) l))
      by (now rewrite !map_length).
    apply (app_inv_len _ _ _ _ EL) in E. now injection E.
  - exfalso. apply D. rewrite Ef in D1, D2. apply Forall_app in D1 as [_ D1], D2 as [_ D2].
    inversion D1; inversion D2; subst; tauto.
Qed.
End EqExact.

(** fill_from. *)
Lemma fill_efields_ok b e s fs : forall m other, wf_struct (plain s) ->
  bytes_ok m -> bytes_ok other -> e_size s <= len m -> e_size s <= len other ->
  Forall (fun f => wf_field (s_size (plain s)) (fst f)) fs -> Forall sign_ok fs ->
  (Forall (fun f => declared f other) fs ->
     fill_efields b e s fs m other = fill_fields b e (plain s) (map fst fs) m other) /\
  (Exists (fun f => ~ declared f other) fs -> fill_efields b e s fs m other = UB).
Proof.
  induction fs as [|f fs IH]; intros m other Hw Hm Ho Hl Hlo Hfs Hsg; split; simpl; intros H.
  - reflexivity.
  - inversion H.
  - inversion H; inversion Hfs; inversion Hsg; subst.
    rewrite (get_efield_ok b e (plain s)), (get_field_ok b e (plain s)) by auto.
    destruct (declared_dec f other) as [D|]; [|contradiction]. simpl obind.
    assert (Hr : in_range (f_prim (fst f)) (f_bits (fst f)) (code_of f other)).
    { match goal with X : wf_field _ (fst f) |- _ => destruct X as (_ & ? & _ & _ & ?) end.
      apply field_value_in_range; auto; lia. }
    rewrite set_efield_plain; auto.
    fold (code_of f other).
    destruct (set_field_bits b e (plain s) (fst f) (code_of f other) m) as (m' & -> & Hm' & Hl' & _); auto.
    simpl obind. apply IH; auto. lia.
  - inversion Hfs; inversion Hsg; subst.
    rewrite (get_efield_ok b e (plain s)) by auto.
    destruct (declared_dec f other) as [D|]; [|reflexivity]. simpl obind.
    assert (Hr : in_range (f_prim (fst f)) (f_bits (fst f)) (code_of f other)).
    { match goal with X : wf_field _ (fst f) |- _ => destruct X as (_ & ? & _ & _ & ?) end.
      apply field_value_in_range; auto; lia. }
    rewrite set_efield_plain; auto.
    destruct (set_field_bits b e (plain s) (fst f) (code_of f other) m) as (m' & -> & Hm' & Hl' & _); auto.
    simpl obind. apply IH; auto; [lia|]. inversion H; subst; auto. contradiction.
Qed.

Theorem fill_enums_exact b e s m other : wf_struct (plain s) ->
  bytes_ok m -> bytes_ok other -> e_size s <= len m -> e_size s <= len other ->
  Forall sign_ok (e_fields s) ->
  (Forall (fun f => declared f other) (e_fields s) ->
     exists m', fill_enums b e s m other = Ret m' /\ bytes_ok m' /\ len m' = len m /\
       skipn (Z.to_nat (e_size s)) m' = skipn (Z.to_nat (e_size s)) m /\
       decode (plain s) m' = decode (plain s) other) /\
  (Exists (fun f => ~ declared f other) (e_fields s) -> fill_enums b e s m other = UB).
Proof.
  intros Hw Hm Ho Hl Hlo Hsg.
  destruct (fill_efields_ok b e s (e_fields s) m other Hw Hm Ho Hl Hlo (wf_plain s Hw) Hsg) as [R U].
  split; [|exact U]. intros D. unfold fill_enums. rewrite (R D).
  change (map fst (e_fields s)) with (s_fields (plain s)).
  apply (fill_from_decode b e (plain s)); auto.
Qed.

(** A setter call: one field of the record changes. *)
Theorem set_enums_decode b e s i v m : wf_struct (plain s) -> bytes_ok m -> e_size s <= len m ->
  (i < length (e_fields s))%nat ->
  let f := nth i (e_fields s) (default_field, None) in
  sign_ok f -> may_set f v -> in_range (f_prim (fst f)) (f_bits (fst f)) v ->
  exists m', set_efield b e s f v m = Ret m' /\ len m' = len m /\
    decode (plain s) m' = upd i v (decode (plain s) m) /\
    skipn (Z.to_nat (e_size s)) m' = skipn (Z.to_nat (e_size s)) m.
Proof.
  intros Hw Hm Hl Hi f Hs Hv Hr.
  assert (Ef : field_nth (plain s) i = fst f).
  { unfold field_nth, plain, f. cbn [s_fields]. 
    change default_field with (fst (default_field, @None (bool * list Z))). now rewrite map_nth. }
  assert (Hi' : (i < length (s_fields (plain s)))%nat) by (unfold plain; cbn [s_fields]; now rewrite map_length).
  pose proof (wf_nth (plain s) i Hw Hi') as Hf. rewrite Ef in Hf.
  rewrite set_efield_plain by auto.
  destruct (set_field_decode b e (plain s) i v m) as (m' & R & _ & L & D & T & _); auto.
  { now rewrite Ef. }
  rewrite Ef in R. exists m'. auto.
Qed.

(** The wrong [impl Int]: a negative enumerator written as unsigned sets every
    bit that follows the field in its last byte. *)
Lemma testbit_neg v n j : 0 <= n -> - 2 ^ n <= v < 0 -> n <= j -> Z.testbit v j = true.
Proof.
  intros Hn Hv Hj. replace v with (Z.lnot (- v - 1)) by (unfold Z.lnot; lia).
  rewrite Z.lnot_spec by lia. rewrite (testbit_small (- v - 1) n) by lia. reflexivity.
Qed.

Theorem wrong_sign b e s f codes v m : wf_field (e_size s) (fst f) -> bytes_ok m ->
  e_size s <= len m -> snd f = Some (false, codes) -> is_signed (f_prim (fst f)) = true ->
  in_range (f_prim (fst f)) (f_bits (fst f)) v -> v < 0 ->
  exists m', set_efield b e s f v m = Ret m' /\ len m' = len m /\
    forall i, 0 <= i ->
      bit_at m' i =
        if (f_off (fst f) <=? i) && (i <? f_off (fst f) + f_bits (fst f))
        then Z.testbit v (i - f_off (fst f))
        else if (f_off (fst f) + f_bits (fst f) <=? i) &&
                (i <? 8 * ((f_off (fst f) + f_bits (fst f) + 7) / 8)) &&
                (i - f_off (fst f) <? 64)
        then true else bit_at m i.
Proof.
  intros Hf Hm Hl Es Sg Hr Hv. pose proof Hf as (Ho & Hb & Hi & HL & Hs).
  pose proof (width_cases (f_prim (fst f))) as Hwd.
  unfold set_efield, set_field, write_type. rewrite Es.
  cbn [plain s_size f_prim f_off f_bits].
  replace (e_size s <=? len m) with true by lia.
  set (head := firstn (Z.to_nat (e_size s)) m). set (tail := skipn (Z.to_nat (e_size s)) m).
  assert (Hlh : len head = e_size s) by (apply len_firstn; lia).
  assert (Hmt : m = head ++ tail) by (symmetry; apply firstn_skipn).
  destruct (write_bits b e U64 v head (f_off (fst f)) (f_bits (fst f)))
    as (h' & Hw & Hok & Hlen & Hbits); try lia; auto.
  { now apply bytes_ok_firstn. }
  { split; lia. }
  rewrite Hw. simpl obind. eexists; split; [reflexivity|]. split.
  { rewrite Hmt. rewrite !len_app. lia. }
  intros i Hi0. rewrite bit_at_app by lia. rewrite Hlen, Hlh.
  assert (Hend : 8 * ((f_off (fst f) + f_bits (fst f) + 7) / 8) <= 8 * e_size s) by lia.
  destruct (Z.ltb_spec i (8 * e_size s)).
  - rewrite Hbits by lia. unfold written_bit. cbn [is_signed negb].
    set (c1 := (f_off (fst f) <=? i) && (i <? f_off (fst f) + f_bits (fst f))).
    set (c2 := (f_off (fst f) + f_bits (fst f) <=? i) &&
               (i <? 8 * ((f_off (fst f) + f_bits (fst f) + 7) / 8))).
    destruct c1; auto. destruct c2 eqn:E2; simpl; unfold c2 in E2.
    + assert (HT : Z.testbit v (i - f_off (fst f)) = true).
      { apply (testbit_neg v (f_bits (fst f) - 1)); try lia.
        unfold in_range in Hr. destruct (f_prim (fst f)); cbn in *; try discriminate; lia. }
      rewrite HT. destruct (_ <? 64); cbn; [apply orb_true_r|]. rewrite orb_false_r.
      unfold head. apply bit_at_firstn. lia.
    + unfold head. apply bit_at_firstn. lia.
  - replace ((f_off (fst f) <=? i) && (i <? f_off (fst f) + f_bits (fst f))) with false by lia.
    replace ((f_off (fst f) + f_bits (fst f) <=? i) && (i <? 8 * ((f_off (fst f) + f_bits (fst f) + 7) / 8))) with false by lia.
    simpl. rewrite Hmt. rewrite bit_at_app by lia. rewrite Hlh.
    now replace (i <? _) with false by lia.
Qed.

(** Items. *)
Definition item_good (ts : list edesc) (x : nat * list Z) : Prop :=
  exists s, nth_error ts (fst x) = Some s /\ wf_struct (plain s) /\ bytes_ok (snd x) /\
    e_size s <= len (snd x) /\ Forall (fun f => declared f (snd x)) (e_fields s).
Definition item_fields (ts : list edesc) (x : nat * list Z) : nat * list Z :=
  (fst x, decode (plain (nth (fst x) ts (mkEnums 0 []))) (snd x)).

Theorem eq_item_exact b e ts x y : item_good ts x -> item_good ts y ->
  exists r, eq_item b e ts x y = Ret r /\ (r = true <-> item_fields ts x = item_fields ts y).
Proof.
  intros (s & N & W & B & L & D) (s' & N' & W' & B' & L' & D').
  destruct x as [t m], y as [t' m']. unfold eq_item, item_fields. cbn [fst snd] in *.
  destruct (Nat.eqb_spec t t') as [->|Ne].
  - rewrite N in N'. injection N' as <-.
    rewrite (nth_error_nth ts t' _ N).
    destruct (eq_enums_declared b e s m m' W B B' L L' D D') as (r & R & I).
    exists r. split; auto. rewrite I. split; [now intros ->|]. intros E. now injection E.
  - exists false. split; auto. split; [discriminate|]. intros E. injection E as E _. contradiction.
Qed.
