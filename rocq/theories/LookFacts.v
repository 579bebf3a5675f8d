(** Proofs: two archives have the same text exactly if they look the same. *)
From Verif Require Import Base BaseFacts Codec CodecSpec CodecFacts Structs StructsSpec StructsFacts Views ViewsSpec ViewsFacts.
From Verif Require Import Storage PathFacts StorageSpec Writers WritersSpec MultiViews MultiSpec MultiViewFacts MultiViewUse Archives ArchiveSpec ArchiveFacts.
From Verif Require Import BuilderSpec BuilderFacts MomentSpec DuringSpec DuringUse Text TextSpec TextFacts TextUse LookSpec.
Local Open Scope string_scope.
Local Open Scope list_scope.
Local Open Scope Z_scope.

Lemma alike_eq addr a x x' : alike addr a x x' <->
  (forall k r, nth_error (ad_structs a) k = Some r ->
     both (fun m m' => decode (tr_struct r) m = decode (tr_struct r) m') (get_struct x k) (get_struct x' k)) /\
  (forall k r, nth_error (ad_vectors a) k = Some r ->
     both (fun v v' => same_top (records (tr_struct r) (sl_bytes v)) (records (tr_struct r) (sl_bytes v'))) (get_vector x k) (get_vector x' k)) /\
  (forall k r, nth_error (ad_multis a) k = Some r ->
     both (fun v v' => exists l l', mav_shows (mr_types r) (mr_size r) (mr_bits r) v l /\ mav_shows (mr_types r) (mr_size r) (mr_bits r) v' l' /\
                        same_top l l') (get_multi x k) (get_multi x' k)) /\
  (forall k r, nth_error (ad_raws a) k = Some r ->
     both (fun d d' => addr d = addr d' /\ sl_len d = sl_len d') (get_raw x k) (get_raw x' k)) /\
  (forall k s, nth_error (ad_subs a) k = Some s -> both (alike addr (snd (fst s))) (get_sub x k) (get_sub x' k)).
Proof.
  destruct a as [name schema ss vs ms rs subs]. cbn [alike ad_structs ad_vectors ad_multis ad_raws ad_subs].
  match goal with |- _ /\ _ /\ _ /\ _ /\ ?g O subs <-> _ => set (go := g) end.
  assert (E : forall l j, go j l <-> forall k s, nth_error l k = Some s -> both (alike addr (snd (fst s))) (get_sub x (j + k)) (get_sub x' (j + k))).
  { clear. induction l as [|[[n a'] o] l IH]; intros j; cbn [go].
    - split; auto. intros _ [|k] s H; discriminate H.
    - rewrite IH. split.
      + intros [H H'] [|k] s Hk; cbn [nth_error] in Hk.
        * injection Hk as <-. rewrite Nat.add_0_r. exact H.
        * rewrite <- Nat.add_succ_comm. exact (H' k s Hk).
      + intros H. split.
        * specialize (H O _ eq_refl). rewrite Nat.add_0_r in H. exact H.
        * intros k s Hk. specialize (H (S k) s Hk). rewrite <- Nat.add_succ_comm in H. exact H. }
  rewrite E. reflexivity.
Qed.

(** No text is the beginning of the other, and they are equal exactly if [R]. *)
Definition apart (t t' : string) : Prop := forall k k', t +++ k = t' +++ k' -> t = t' /\ k = k'.
Definition tells (R : Prop) (t t' : string) : Prop := apart t t' /\ (t = t' <-> R).
Lemma apart_refl t : apart t t.
Proof. intros k k' E. apply app_s_inv in E. auto. Qed.
Lemma apart_app x x' y y' : apart x x' -> apart y y' -> apart (x +++ y) (x' +++ y').
Proof.
  intros X Y k k' E. rewrite !app_s_assoc in E. destruct (X _ _ E) as [-> E']. destruct (Y _ _ E') as [-> ->]. auto.
Qed.
Lemma tells_around R x y t t' : tells R t t' -> tells R (x +++ t +++ y) (x +++ t' +++ y).
Proof.
  intros [A E]. split; [apply apart_app; [apply apart_refl|apply apart_app; [exact A|apply apart_refl]]|]. rewrite <- E. split; [|congruence].
  intros H. apply app_s_inv in H. apply A in H. apply H.
Qed.
Lemma tells_iff R R' t t' : (R <-> R') -> tells R t t' -> tells R' t t'.
Proof. intros H [A E]. split; [exact A|]. rewrite E. exact H. Qed.
Lemma tells_opt {V} (R : V -> V -> Prop) (text text' : V -> outcome string) n opt o o' t t' :
  (opt = false -> o <> None) -> (opt = false -> o' <> None) ->
  (forall v v' u u', o = Some v -> o' = Some v' -> text v = Ret u -> text' v' = Ret u' -> tells (R v v') u u') ->
  (u <- opt_run text o ;; Ret (labelled n opt u)) = Ret t -> (u <- opt_run text' o' ;; Ret (labelled n opt u)) = Ret t' ->
  tells (both R o o') t t'.
Proof.
  intros P P' H E E'.
  assert (F : forall (o : option V) text t, (u <- opt_run text o ;; Ret (labelled n opt u)) = Ret t ->
    exists u, t = labelled n opt u /\ match o with Some v => exists x, text v = Ret x /\ u = Some x | None => u = None end).
  { clear. intros [v|] text t; cbn; [|intros [= <-]; eauto]. destruct (text v) as [u| | |]; cbn; try discriminate. intros [= <-]. eauto. }
  apply F in E as (u & -> & U). apply F in E' as (u' & -> & U'). clear F. unfold labelled.
  assert (Z : forall s, s = "" +++ s) by reflexivity.
  assert (T : tells (both R o o') (opt_text opt u) (opt_text opt u')).
  { destruct opt.
    - destruct o as [v|], o' as [v'|]; cbn [both].
      + destruct U as (x & Ex & ->), U' as (x' & Ex' & ->). cbn [opt_text]. apply tells_around. apply H; auto.
      + destruct U as (x & Ex & ->). subst u'. split; [intros k k' E; discriminate E|]. split; [discriminate|contradiction].
      + destruct U' as (x & Ex & ->). subst u. split; [intros k k' E; discriminate E|]. split; [discriminate|contradiction].
      + subst. split; [apply apart_refl|]. tauto.
    - destruct o as [v|]; [|elim (P eq_refl eq_refl)]. destruct o' as [v'|]; [|elim (P' eq_refl eq_refl)].
      destruct U as (x & Ex & ->), U' as (x' & Ex' & ->). cbn [opt_text both]. apply H; auto. }
  rewrite <- (app_s_nil (opt_text opt u)), <- (app_s_nil (opt_text opt u')), <- !(app_s_assoc n). apply tells_around. exact T.
Qed.

(** Lists of parts. *)
Lemma part_tells {A} (one one' : nat -> A -> outcome string) (R : nat -> A -> Prop) l : forall i ts ts',
  (forall k r t t', nth_error l k = Some r -> one (i + k)%nat r = Ret t -> one' (i + k)%nat r = Ret t' -> tells (R k r) t t') ->
  part_texts one i l = Ret ts -> part_texts one' i l = Ret ts' ->
  Forall2 apart ts ts' /\ (ts = ts' <-> forall k r, nth_error l k = Some r -> R k r).
Proof.
  revert R. induction l as [|r l IH]; intros R i ts ts' H E E'; cbn [part_texts] in E, E'.
  - injection E as <-. injection E' as <-. split; [constructor|]. split; auto. intros _ [|k]; discriminate.
  - destruct (one i r) as [t| | |] eqn:Q; try discriminate E. destruct (one' i r) as [t'| | |] eqn:Q'; try discriminate E'. cbn [obind] in E, E'.
    destruct (part_texts one (S i) l) as [us| | |] eqn:U; try discriminate E. destruct (part_texts one' (S i) l) as [us'| | |] eqn:U'; try discriminate E'.
    cbn [obind] in E, E'. injection E as <-. injection E' as <-.
    destruct (H O r t t' eq_refl) as [A1 A2]; [rewrite Nat.add_0_r; exact Q|rewrite Nat.add_0_r; exact Q'|].
    destruct (IH (fun k => R (S k)) (S i) us us') as [B1 B2]; [|exact U|exact U'|].
    { intros k r' u u' Hk. rewrite Nat.add_succ_comm. apply H. exact Hk. }
    split; [constructor; auto|]. split.
    + intros [= -> ->]. intros [|k] r' Hk; cbn [nth_error] in Hk; [injection Hk as <-; apply A2; reflexivity|apply B2; auto].
    + intros F. f_equal; [apply A2; apply (F O); reflexivity|apply B2; intros k r' Hk; apply (F (S k)); exact Hk].
Qed.
Lemma map_tells {A} (one one' : nat -> A -> string) (R : nat -> A -> Prop) l :
  (forall k r, nth_error l k = Some r -> tells (R k r) (one k r) (one' k r)) ->
  let ts := map (fun p => one (fst p) (snd p)) (combine (seq 0 (List.length l)) l) in
  let ts' := map (fun p => one' (fst p) (snd p)) (combine (seq 0 (List.length l)) l) in
  Forall2 apart ts ts' /\ (ts = ts' <-> forall k r, nth_error l k = Some r -> R k r).
Proof.
  intros H. assert (G : forall (f : nat -> A -> string) l i, part_texts (fun k r => Ret (f k r)) i l = Ret (map (fun p => f (fst p) (snd p)) (combine (seq i (List.length l)) l))).
  { clear. induction l as [|r l IH]; intros i; cbn; [reflexivity|]. rewrite IH. reflexivity. }
  apply (part_tells _ _ R l 0 _ _) with (2 := G one l O) (3 := G one' l O). intros k r t t' Hk [= <-] [= <-]. apply H. exact Hk.
Qed.
Lemma concat_fold sep l : forall x, String.concat sep (x :: l) = x +++ fold_right (fun t k => sep +++ t +++ k) "" l.
Proof.
  induction l as [|y l IH]; intros x; cbn [fold_right]; [cbn; rewrite app_s_nil; reflexivity|].
  change (String.concat sep (x :: y :: l)) with (x +++ sep +++ String.concat sep (y :: l)). rewrite IH. reflexivity.
Qed.
Lemma interspersed l l' : Forall2 apart l l' -> tells (l = l') (intersperse ("" :: l)) (intersperse ("" :: l')).
Proof.
  unfold intersperse. rewrite !concat_fold. generalize ", " as sep. intros sep. cbn [String.append]. induction 1 as [|t t' l l' A F [IH1 IH2]]; cbn [fold_right].
  - split; [apply apart_refl|tauto].
  - split.
    + apply apart_app; [apply apart_refl|]. apply apart_app; auto.
    + split; [|congruence]. intros E. apply app_s_inv in E. destruct (A _ _ E) as [-> E']. apply IH2 in E' as ->. reflexivity.
Qed.
Lemma app_tells {A} (l l' m m' : list A) (P Q : Prop) : List.length l = List.length l' -> (l = l' <-> P) -> (m = m' <-> Q) -> (l ++ m = l' ++ m' <-> P /\ Q).
Proof.
  intros L H1 H2. rewrite <- H1, <- H2. split; [|intros [-> ->]; reflexivity]. intros E.
  assert (F := f_equal (firstn (List.length l)) E). rewrite L in F at 2. rewrite !firstn_app, !Nat.sub_diag, !firstn_all in F. cbn in F. rewrite !app_nil_r in F.
  subst l'. apply app_inv_head in E. auto.
Qed.

(** * Single resources *)
Lemma struct_tells b e b' e' s n m m' t t' : wf_struct s -> names_ok s n -> bytes_ok m -> s_size s <= len m -> bytes_ok m' -> s_size s <= len m' ->
  struct_text b e s n m = Ret t -> struct_text b' e' s n m' = Ret t' -> tells (decode s m = decode s m') t t'.
Proof.
  intros W N B L B' L' E E'. split; [|exact (struct_text_eq b e b' e' s n m m' t t' W N B L B' L' E E')].
  destruct (struct_text_spec b e s n m W N B L) as [[S T]|[_ T]]; [|congruence].
  destruct (struct_text_spec b' e' s n m' W N B' L') as [[S' T']|[_ T']]; [|congruence].
  assert (t = record_text n (decode s m)) as -> by congruence. assert (t' = record_text n (decode s m')) as -> by congruence.
  intros k k' H. destruct (record_decodes s n N _ _ k k' (decode_ok s n m W N S) (decode_ok s n m' W N S') H) as [-> ->]. auto.
Qed.
Lemma listing_apart {A} (Q : A -> Prop) g title n n' q q' : decodes Q (fun x => list_text (g x)) -> Q q -> Q q' ->
  apart (listing title n (g q)) (listing title n' (g q')).
Proof.
  intros D Q1 Q2 k k' E. unfold listing in E. remember (fun x => list_text (g x)) as h eqn:Eh.
  change (list_text (g q)) with ((fun x => list_text (g x)) q) in E. change (list_text (g q')) with ((fun x => list_text (g x)) q') in E.
  rewrite <- Eh in E. rewrite !app_s_assoc in E. apply app_s_inv in E. cbn [String.append] in E. injection E as E.
  apply words_end in E; [|apply dec_word|apply dec_word|reflexivity|reflexivity]. destruct E as [E E']. apply dec_inj in E.
  cbn [String.append] in E'. injection E' as E'. destruct (D _ _ _ _ Q1 Q2 E') as [-> E2]. assert (n = n') by lia. subst n'. split; [reflexivity|].
  apply app_s_inv in E2. injection E2 as E2. exact E2.
Qed.
Lemma view_tells b e b' e' title s n v v' t t' : wf_struct s -> names_ok s n -> slice_ok v -> slice_ok v' ->
  view_text b e title s n v = Ret t -> view_text b' e' title s n v' = Ret t' ->
  tells (same_top (records s (sl_bytes v)) (records s (sl_bytes v'))) t t'.
Proof.
  intros W N V V' E E'. split; [|exact (view_text_eq b e b' e' title s n v v' t t' W N V V' E E')].
  destruct (view_text_spec b e title s n v W N V) as [[S T]|[_ T]]; [|congruence].
  destruct (view_text_spec b' e' title s n v' W N V') as [[S' T']|[_ T']]; [|congruence].
  rewrite E in T. rewrite E' in T'. apply ret_inj in T as ->. apply ret_inj in T' as ->.
  apply (listing_apart (Forall (record_fit n)) (map (record_text n))); [|apply records_fit; auto|apply records_fit; auto].
  apply list_decodes; [apply (record_decodes s n N)|]. intros x _. eapply record_opens; eauto.
Qed.
Lemma multi_tells b e b' e' title size bits ts ns v v' l l' t t' : wf_struct (index_struct size bits) -> wf_vdesc ts -> vnames_ok ts ns ->
  mav_shows ts size bits v l -> mav_shows ts size bits v' l' ->
  multi_text b e title size bits ts ns v = Ret t -> multi_text b' e' title size bits ts ns v' = Ret t' -> tells (same_top l l') t t'.
Proof.
  intros Wi W V H H' E E'. split; [|exact (multi_text_eq b e b' e' title size bits ts ns v v' l l' t t' Wi W V H H' E E')].
  destruct (multi_text_spec b e title size bits ts ns v l Wi W V H) as [[S T]|[_ T]]; [|congruence].
  destruct (multi_text_spec b' e' title size bits ts ns v' l' Wi W V H') as [[S' T']|[_ T']]; [|congruence].
  rewrite E in T. rewrite E' in T'. apply ret_inj in T as ->. apply ret_inj in T' as ->.
  assert (F : forall v l, mav_shows ts size bits v l -> Forall (Forall (item_sayable ns)) (firstn 10 l) -> Forall (Forall (item_fit ns)) (firstn 10 l)).
  { clear - V. intros v l H. rewrite !Forall_forall. intros F x I. specialize (F x I). rewrite Forall_forall in *. intros y J.
    apply (item_fits ts); auto. apply (mav_shows_values ts size bits v l x y H); auto. rewrite <- (firstn_skipn 10). apply in_or_app. auto. }
  apply (listing_apart (Forall (Forall (item_fit ns))) (fun x => numbered 0 (map (bucket_text ns) x))); [|eapply F; eauto|eapply F; eauto].
  apply numbered_decodes. apply (bucket_decodes ts ns V).
Qed.
Lemma memory_tells addr addr' d d' : ident (addr d) -> ident (addr' d') ->
  tells (addr d = addr' d' /\ sl_len d = sl_len d') (memory_text addr d) (memory_text addr' d').
Proof.
  intros I I'. apply ident_word in I. apply ident_word in I'.
  assert (F : forall k k', memory_text addr d +++ k = memory_text addr' d' +++ k' -> addr d = addr' d' /\ sl_len d = sl_len d' /\ k = k').
  { unfold memory_text. intros k k' E. rewrite !app_s_assoc in E. apply app_s_inv in E.
    apply words_end in E as [E1 E]; [|exact I|exact I'|reflexivity|reflexivity]. apply app_s_inv in E.
    apply words_end in E as [E2 E]; [|apply dec_word|apply dec_word|reflexivity|reflexivity]. apply dec_inj in E2. apply app_s_inv in E. auto. }
  assert (G : addr d = addr' d' -> sl_len d = sl_len d' -> memory_text addr d = memory_text addr' d').
  { unfold memory_text. intros -> ->. reflexivity. }
  split.
  - intros k k' E. destruct (F k k' E) as (E1 & E2 & E3). auto.
  - split; [|intros [E1 E2]; auto]. intros E. destruct (F "" "") as (E1 & E2 & _); [|auto]. rewrite E. reflexivity.
Qed.

(** * Archives *)
Lemma archive_tells b e b' e' addr a : (forall d, ident (addr d)) -> forall ns x x' t t', anames_ok a ns -> printable a ns x -> printable a ns x' ->
  complete a x -> complete a x' -> archive_text b e addr a ns x = Ret t -> archive_text b' e' addr a ns x' = Ret t' -> tells (alike addr a x x') t t'.
Proof.
  intros Ad. induction a as [name schema ss vs ms rs subs IH] using adesc_deep_ind. set (a := mkArchive name schema ss vs ms rs subs) in *.
  intros ns x x' t t' N P P' C C' E E'. apply anames_ok_eq in N as (N1 & N2 & N3 & N4).
  apply printable_eq in P as (P1 & P2 & P3 & P4). apply printable_eq in P' as (P1' & P2' & P3' & P4').
  apply complete_eq in C as (C1 & C2 & C3 & C4 & C5). apply complete_eq in C' as (C1' & C2' & C3' & C4' & C5').
  rewrite archive_text_eq in E, E'. rewrite Forall_forall in IH.
  destruct (part_texts (typed_one (struct_text b e) (get_struct x) (an_structs ns)) 0 (ad_structs a)) as [t1| | |] eqn:T1; try discriminate E.
  destruct (part_texts (typed_one (struct_text b' e') (get_struct x') (an_structs ns)) 0 (ad_structs a)) as [t1'| | |] eqn:T1'; try discriminate E'.
  cbn [obind] in E, E'.
  destruct (part_texts (typed_one (av_text b e) (get_vector x) (an_vectors ns)) 0 (ad_vectors a)) as [t2| | |] eqn:T2; try discriminate E.
  destruct (part_texts (typed_one (av_text b' e') (get_vector x') (an_vectors ns)) 0 (ad_vectors a)) as [t2'| | |] eqn:T2'; try discriminate E'.
  cbn [obind] in E, E'.
  destruct (part_texts (multi_one b e x (an_multis ns)) 0 (ad_multis a)) as [t3| | |] eqn:T3; try discriminate E.
  destruct (part_texts (multi_one b' e' x' (an_multis ns)) 0 (ad_multis a)) as [t3'| | |] eqn:T3'; try discriminate E'.
  cbn [obind] in E, E'.
  destruct (part_texts (sub_one b e addr x (an_subs ns)) 0 (ad_subs a)) as [t5| | |] eqn:T5; try discriminate E.
  destruct (part_texts (sub_one b' e' addr x' (an_subs ns)) 0 (ad_subs a)) as [t5'| | |] eqn:T5'; try discriminate E'.
  cbn [obind] in E, E'. apply ret_inj in E as <-. apply ret_inj in E' as <-. apply (tells_iff _ _ _ _ (iff_sym (alike_eq addr a x x'))).
  assert (S1 : Forall2 apart t1 t1' /\ (t1 = t1' <-> forall k r, nth_error (ad_structs a) k = Some r ->
     both (fun m m' => decode (tr_struct r) m = decode (tr_struct r) m') (get_struct x k) (get_struct x' k))).
  { apply (part_tells _ _ _ _ _ _ _) with (2 := T1) (3 := T1'). intros k r u u' Hk. cbn [plus]. unfold typed_one.
    destruct (Forall2_at _ _ _ k r (mkNames "" []) N1 Hk) as [Hn [Wr No]]. apply tells_opt.
    - intros Ho Hg. apply (C1 k r Hk Ho). unfold get_struct in Hg. destruct (nth k (ar_structs x) None); [discriminate|reflexivity].
    - intros Ho Hg. apply (C1' k r Hk Ho). unfold get_struct in Hg. destruct (nth k (ar_structs x') None); [discriminate|reflexivity].
    - intros m m' z z' Hm Hm'. destruct (P1 k r _ m Hk Hn Hm) as (B & L & _). destruct (P1' k r _ m' Hk Hn Hm') as (B' & L' & _).
      apply struct_tells; auto. }
  assert (S2 : Forall2 apart t2 t2' /\ (t2 = t2' <-> forall k r, nth_error (ad_vectors a) k = Some r ->
     both (fun v v' => same_top (records (tr_struct r) (sl_bytes v)) (records (tr_struct r) (sl_bytes v'))) (get_vector x k) (get_vector x' k))).
  { apply (part_tells _ _ _ _ _ _ _) with (2 := T2) (3 := T2'). intros k r u u' Hk. cbn [plus]. unfold typed_one.
    destruct (Forall2_at _ _ _ k r (mkNames "" []) N2 Hk) as [Hn [Wr No]]. apply tells_opt.
    - intros Ho. apply (C2 k r Hk Ho).
    - intros Ho. apply (C2' k r Hk Ho).
    - intros m m' z z' Hm Hm'. destruct (P2 k r _ m Hk Hn Hm) as (V & _). destruct (P2' k r _ m' Hk Hn Hm') as (V' & _).
      apply view_tells; auto. }
  assert (S3 : Forall2 apart t3 t3' /\ (t3 = t3' <-> forall k r, nth_error (ad_multis a) k = Some r ->
     both (fun v v' => exists l l', mav_shows (mr_types r) (mr_size r) (mr_bits r) v l /\ mav_shows (mr_types r) (mr_size r) (mr_bits r) v' l' /\
                        same_top l l') (get_multi x k) (get_multi x' k))).
  { apply (part_tells _ _ _ _ _ _ _) with (2 := T3) (3 := T3'). intros k r u u' Hk. cbn [plus]. unfold multi_one.
    destruct (Forall2_at _ _ _ k r [] N3 Hk) as [Hn (Wi & _ & Wt & No)].
    assert (G : forall y, (fst (nth k (ar_multis y) (None, None)) <> None /\ snd (nth k (ar_multis y) (None, None)) <> None) -> get_multi y k <> None).
    { clear. unfold get_multi. intros y. destruct (nth k (ar_multis y) (None, None)) as [[i|] [d|]]; cbn; try discriminate; intros [H H']; congruence. }
    apply tells_opt.
    - intros Ho. apply G. exact (C3 k r Hk Ho).
    - intros Ho. apply G. exact (C3' k r Hk Ho).
    - intros m m' z z' Hm Hm' Z Z'. destruct (P3 k r _ m Hk Hn Hm) as (l & Sh & _). destruct (P3' k r _ m' Hk Hn Hm') as (l' & Sh' & _).
      assert (Q := multi_tells b e b' e' "MultiArrayView" _ _ _ _ m m' l l' z z' Wi Wt No Sh Sh' Z Z').
      apply (tells_iff (same_top l l')); [|exact Q]. split; [intros S; exists l, l'; auto|].
      intros (l1 & l1' & Sh1 & Sh1' & S). assert (Q' := multi_tells b e b' e' "MultiArrayView" _ _ _ _ m m' l1 l1' z z' Wi Wt No Sh1 Sh1' Z Z').
      apply Q, Q'. exact S. }
  assert (S4 : Forall2 apart (raw_texts addr x (ad_raws a)) (raw_texts addr x' (ad_raws a)) /\
    (raw_texts addr x (ad_raws a) = raw_texts addr x' (ad_raws a) <-> forall k r, nth_error (ad_raws a) k = Some r ->
     both (fun d d' => addr d = addr d' /\ sl_len d = sl_len d') (get_raw x k) (get_raw x' k))).
  { unfold raw_texts.
    apply (map_tells (fun k r => labelled (rr_name r) (rr_opt r) (option_map (memory_text addr) (get_raw x k)))
                     (fun k r => labelled (rr_name r) (rr_opt r) (option_map (memory_text addr) (get_raw x' k)))).
    intros k r Hk.
    apply (tells_opt _ (fun d => Ret (memory_text addr d)) (fun d => Ret (memory_text addr d)) (rr_name r) (rr_opt r)).
    - exact (C4 k r Hk).
    - exact (C4' k r Hk).
    - intros d d' u u' _ _ [= <-] [= <-]. apply memory_tells; apply Ad.
    - destruct (get_raw x k); reflexivity.
    - destruct (get_raw x' k); reflexivity. }
  assert (S5 : Forall2 apart t5 t5' /\ (t5 = t5' <-> forall k s, nth_error (ad_subs a) k = Some s ->
     both (alike addr (snd (fst s))) (get_sub x k) (get_sub x' k))).
  { apply (part_tells _ _ _ _ _ _ _) with (2 := T5) (3 := T5'). intros k s u u' Hk. cbn [plus]. unfold sub_one.
    destruct (Forall2_at _ _ _ k s no_names N4 Hk) as [Hn No]. specialize (C5 k s Hk). specialize (C5' k s Hk).
    change (nth k (ar_subs x) None) with (get_sub x k) in C5. change (nth k (ar_subs x') None) with (get_sub x' k) in C5'.
    apply tells_opt.
    - intros Ho Hg. rewrite Hg in C5. congruence.
    - intros Ho Hg. rewrite Hg in C5'. congruence.
    - intros y y' z z' Hy Hy'. rewrite Hy in C5. rewrite Hy' in C5'. apply (IH s (nth_error_In _ _ Hk)); auto; [exact (P4 k s _ y Hk Hn Hy)|exact (P4' k s _ y' Hk Hn Hy')]. }
  clear - S1 S2 S3 S4 S5. destruct S1 as [A1 S1], S2 as [A2 S2], S3 as [A3 S3], S4 as [A4 S4], S5 as [A5 S5].
  rewrite <- (app_s_assoc (ad_name a)), <- (app_s_assoc (ad_name a)). apply tells_around.
  eapply tells_iff; [|apply interspersed; repeat (apply Forall2_app; [eassumption|]); eassumption].
  repeat (apply app_tells; [eapply Forall2_length; eassumption|assumption|]). assumption.
Qed.
Lemma opened_complete strict a : forall p x, opened strict a p x -> complete a x.
Proof.
  induction a as [name schema ss vs ms rs subs IH] using adesc_deep_ind. set (a := mkArchive name schema ss vs ms rs subs) in *.
  intros p x O. apply opened_eq in O as (_ & O1 & O2 & O3 & O4 & O5). apply complete_eq. rewrite Forall_forall in IH.
  split; [|split; [|split; [|split]]].
  - intros k r Hk Ho Hn. assert (Hp := nth_error_Forall2 _ _ _ _ _ None O1 Hk). rewrite Hn in Hp. destruct Hp as [H _]. congruence.
  - intros k r Hk Ho Hn. assert (Hp := nth_error_Forall2 _ _ _ _ _ None O2 Hk). rewrite Hn in Hp. destruct Hp as [H _]. congruence.
  - intros k r Hk Ho. assert (Hp := nth_error_Forall2 _ _ _ _ _ (None, None) O3 Hk).
    destruct Hp as [H1 H2]. split; intros Hn; rewrite Hn in *; [destruct H1 as [H _]|destruct H2 as [H _]]; congruence.
  - intros k r Hk Ho Hn. assert (Hp := nth_error_Forall2 _ _ _ _ _ None O4 Hk). rewrite Hn in Hp. destruct Hp as [H _]. congruence.
  - intros k s Hk. assert (Hp := nth_error_Forall2 _ _ _ _ _ None O5 Hk). unfold sub_part in Hp.
    destruct (nth k (ar_subs x) None) as [y|]; [|apply Hp]. eapply (IH s); [eapply nth_error_In; eauto|exact Hp].
Qed.
