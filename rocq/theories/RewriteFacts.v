(** Writing a file resource that the same storage has already read: exactly
    what the next read does. *)
From Verif Require Import Base BaseFacts Codec CodecSpec CodecFacts Structs StructsSpec StructsFacts Views ViewsSpec.
From Verif Require Import Storage PathFacts StorageSpec StorageFacts StorageMore StorageUse.
Local Open Scope list_scope.
Local Open Scope Z_scope.

(** What reading maps. *)
Lemma read_resource_maps id base n w sl w' : let st := FileStorage id base in maps_ok w ->
  read_resource st n w = (Ret (Ok sl), w') ->
  w_maps w' id (res_path st n) = Some (sl_len sl) /\ w_files w' = w_files w /\ maps_ok w' /\
  (exists c, w_files w (res_key st n) = Some c /\ sl_len sl <= len c /\ 0 < sl_len sl /\
     sl = whole (firstn (Z.to_nat (sl_len sl)) c) /\ len (firstn (Z.to_nat (sl_len sl)) c) = sl_len sl) /\
  forall p, p <> res_path st n -> w_maps w' id p = w_maps w id p.
Proof.
  intros st MO. unfold read_resource, st. fold st. unfold mbind, path_exists, mbind, syscall.
  assert (N : forall w f w1, next_fault w = (f, w1) -> w_maps w1 = w_maps w /\ w_files w1 = w_files w).
  { intros v f w1. unfold next_fault. destruct (w_faults v); intros [= <- <-]; auto. }
  destruct (next_fault w) as [f w1] eqn:E. destruct (N _ _ _ E) as (M1 & F1).
  destruct f; try discriminate.
  unfold mret. destruct (on_disk (res_key st n) w1); try discriminate. unfold mmap_read.
  assert (Len : forall c l, 0 < l <= len c -> mkSlice (firstn (Z.to_nat l) c) l = whole (firstn (Z.to_nat l) c) /\
    len (firstn (Z.to_nat l) c) = l).
  { intros c l H. assert (Q : len (firstn (Z.to_nat l) c) = l) by (unfold len in *; rewrite firstn_length; lia).
    split; auto. unfold whole. rewrite Q. reflexivity. }
  destruct (w_maps w1 id (res_path st n)) as [l|] eqn:El.
  - unfold mapped, file_content. fold (res_key st n). assert (0 < l) by (eapply MO; rewrite <- M1; exact El).
    destruct (w_files w1 (res_key st n)) as [c|] eqn:Ec; [|rewrite len_nil; destruct (Z.leb_spec l 0); [lia|discriminate]].
    destruct (Z.leb_spec l (len c)); try discriminate. cbn [omap].
    intros [= <- <-]. cbn [sl_len]. destruct (Len c l) as (L1 & L2); [lia|]. split; auto. split; auto.
    split; [intros ? ? ?; rewrite M1; apply MO|]. split; [exists c; rewrite <- F1; auto|]. intros. congruence.
  - unfold syscall. destruct (next_fault w1) as [f w2] eqn:E2. destruct (N _ _ _ E2) as (M2 & F2).
    destruct f; try discriminate. fold (res_key st n).
    destruct (w_files w2 (res_key st n)) as [c|] eqn:Ec; try discriminate.
    destruct (Z.eqb_spec (len c) 0); try discriminate. unfold mapped, file_content. cbn [w_files set_maps].
    rewrite Ec, Z.leb_refl. cbn [omap]. pose proof (len_nonneg c).
    intros [= <- <-]. cbn [sl_len w_maps set_maps w_files]. rewrite nupd_same, supd_same.
    destruct (Len c (len c)) as (L1 & L2); [lia|]. split; auto. split; [congruence|].
    split. { intros i p l. cbn [w_maps set_maps]. rewrite M2, M1. unfold nupd, supd. destruct (Nat.eqb i id); [|apply MO].
             destruct (String.eqb p _); [intros [= <-]; lia|apply MO]. }
    split. { exists c. rewrite <- F1, <- F2. split; auto. split; [lia|]. split; [lia|auto]. }
    intros p Hp. rewrite M2, M1. unfold supd. destruct (String.eqb_spec p (res_path st n)); congruence.
Qed.

Lemma mapped_read id base n w l c : let st := FileStorage id base in
  w_faults w = [] -> w_maps w id (res_path st n) = Some l -> w_files w (res_key st n) = Some c -> 0 <= l ->
  read_resource st n w =
  (if l <=? len c then Ret (Ok (whole (firstn (Z.to_nat l) c))) else UB, w).
Proof.
  intros st Hf M F Hl. unfold read_resource, st. fold st. unfold mbind, path_exists, mbind, syscall, next_fault.
  rewrite Hf. unfold on_disk, mret. rewrite F. unfold mmap_read. rewrite M. unfold mapped, file_content.
  fold (res_key st n). rewrite F. destruct (Z.leb_spec l (len c)); auto. cbn [omap]. unfold whole.
  replace (len (firstn (Z.to_nat l) c)) with l; auto. unfold len in *. rewrite firstn_length. lia.
Qed.

Lemma path_schema_neq st n : res_path st (schema_name n) <> res_path st n.
Proof.
  intros H. apply (cell_schema (FileStorage 0 (st_base st)) n). cbn [cell_at]. f_equal.
  unfold res_key, res_path in *. cbn [st_base] in *. rewrite H. reflexivity.
Qed.

Lemma verdict_unframed name expected c sc r : (~ exists d pad, c = framed d pad /\ len pad = 8) ->
  verdict name expected c sc r -> r = Er EUnexpectedDataSize.
Proof. intros N V. destruct V; auto; exfalso; apply N; eauto. Qed.

Lemma verdict_exact name expected d pad sc r : len pad = 8 -> verdict name expected (framed d pad) sc r ->
  r = if negb (utf8_ok sc) then Er EUtf8 else if bytes_eqb sc expected then Ok d else Er (EWrongSignature name).
Proof.
  intros P V. inversion V as [d' pad' Ef Lp U E|Nf|d' pad' Ef Lp U|d' pad' Ef Lp U E].
  - rewrite U. cbn [negb]. rewrite E, (proj2 (bytes_eqb_eq expected expected) eq_refl).
    f_equal. symmetry. eapply framed_inj; eauto.
  - exfalso. eapply Nf; eauto.
  - rewrite U. reflexivity.
  - rewrite U. cbn [negb]. destruct (bytes_eqb sc expected) eqn:Eb; auto. apply bytes_eqb_eq in Eb. congruence.
Qed.

Definition after_rewrite (name : string) (n1 : Z) (s1 s2 d2 expected : list Z) (o : outcome (result (list Z) rs_error)) : Prop :=
  o = if (len d2 <? n1) || (len s2 <? len s1) then UB
      else if n1 <? len d2 then Ret (Er EUnexpectedDataSize)
      else let sc := firstn (length s1) s2 in
        if negb (utf8_ok sc) then Ret (Er EUtf8)
        else if bytes_eqb sc expected then Ret (Ok d2) else Ret (Er (EWrongSignature name)).

Lemma rewrite_exact b1 e1 b2 e2 b3 e3 id base name s1 s2 d2 w1 sl w2 w3 expected :
  let st := FileStorage id base in
  maps_ok w1 -> disk_ok w1 -> data_ok d2 ->
  read b1 e1 st name s1 w1 = (Ret (Ok sl), w2) ->
  write b2 e2 st name s2 d2 w2 = (Ret (Ok tt), w3) -> w_faults w3 = [] ->
  after_rewrite name (sl_len sl) s1 s2 d2 expected (omap seen (fst (read b3 e3 st name expected w3))).
Proof.
  intros st MO DO D2 R W Hf3.
  destruct (write_cases b2 e2 st name s2 d2 w2 _ w3 I I W) as (T2 & [(_ & B1 & B2)|(_ & X & _)]);
    [|destruct X as [(k & ?)|?]; discriminate].
  simpl in B1, B2. fold st in B1, B2. simpl app in B1, B2.
  unfold read, mtry, mbind, lift in R.
  destruct (read_resource st name w1) as [[[x1|k]| | |] wa] eqn:R1; try discriminate.
  destruct (read_resource st (schema_name name) wa) as [[[x2|k]| | |] wb] eqn:R2; try discriminate.
  destruct (read_resource_maps id base name w1 x1 wa MO R1) as (M1 & F1 & MOa & (c & Ec & Lc & Pc & Xc & Xl) & _).
  destruct (read_resource_maps id base (schema_name name) wa x2 wb MOa R2) as (M2 & F2 & MOb & (sc & Esc & Lsc & Psc & Xsc & Xsl) & K2).
  fold st in M1, M2, Ec, Esc, K2. injection R as R <-.
  rewrite <- (K2 _ (fun H => path_schema_neq st name (eq_sym H))) in M1.
  set (c' := firstn (Z.to_nat (sl_len x1)) c) in *. set (sc' := firstn (Z.to_nat (sl_len x2)) sc) in *.
  assert (So : stored_ok c').
  { destruct (DO _ _ Ec) as (Bc & L). split; [apply bytes_ok_firstn; auto|lia]. }
  rewrite Xc, Xsc in R.
  destruct (check_resource_cases b1 e1 name s1 c' sc' So) as [(r & Er & V & Sr)|(_ & _ & _ & Er)]; rewrite Er in R; [|discriminate].
  injection R as ->. destruct (Sr sl eq_refl) as (Sl & _). inversion V as [d pad Ef Lp Uf Es| | |]. subst d.
  assert (L1 : sl_len x1 = sl_len sl + 16).
  { rewrite <- Xl, Ef, framed_len, Lp, len_sl_bytes by auto. lia. }
  assert (L2 : sl_len x2 = len s1) by (rewrite <- Xsl, Es; reflexivity).
  assert (M : w_maps w3 = w_maps wb) by (destruct T2 as (_ & (_ & ->) & _); auto).
  rewrite <- M in M1, M2. rewrite L1 in M1. rewrite L2 in M2. clear R1 R2 V.
  pose proof (len_nonneg (sl_bytes sl)) as Ls. rewrite len_sl_bytes in Ls by auto.
  assert (Ld : len (resource_bytes d2) = len d2 + 16).
  { unfold resource_bytes. rewrite framed_len, len_zeros by lia. lia. }
  unfold after_rewrite, read, mtry, mbind, lift.
  pose proof (mapped_read id base name w3 _ _ Hf3 M1 B1 ltac:(lia)) as Q1. fold st in Q1. rewrite Q1, Ld. clear Q1.
  destruct (Z.ltb_spec (len d2) (sl_len sl)) as [H1|H1].
  { destruct (Z.leb_spec (sl_len sl + 16) (len d2 + 16)); [lia|]. reflexivity. }
  destruct (Z.leb_spec (sl_len sl + 16) (len d2 + 16)); [|lia]. cbn [orb].
  pose proof (mapped_read id base (schema_name name) w3 _ _ Hf3 M2 B2 ltac:(pose proof (len_nonneg s1); lia)) as Q2. fold st in Q2. rewrite Q2. clear Q2.
  destruct (Z.ltb_spec (len s2) (len s1)) as [H2|H2].
  { destruct (Z.leb_spec (len s1) (len s2)); [lia|]. reflexivity. }
  destruct (Z.leb_spec (len s1) (len s2)); [|lia]. cbn [fst].
  set (dd := firstn (Z.to_nat (sl_len sl + 16)) (resource_bytes d2)).
  replace (firstn (Z.to_nat (len s1)) s2) with (firstn (length s1) s2) by (unfold len; rewrite Nat2Z.id; auto).
  set (ss := firstn (length s1) s2). pose proof D2 as (Bd2 & Ld2). unfold isize_max in Ld2.
  assert (Br : bytes_ok (resource_bytes d2)).
  { unfold resource_bytes, framed. rewrite !bytes_ok_app. auto using le_bytes_ok, bytes_ok_zeros. }
  assert (Ldd : len dd = sl_len sl + 16).
  { unfold dd, len. rewrite firstn_length. unfold len in *. lia. }
  assert (Sd : stored_ok dd).
  { split; [apply bytes_ok_firstn; auto|]. rewrite Ldd. unfold isize_max. lia. }
  assert (Hd : header dd = len d2).
  { unfold header, dd. rewrite firstn_firstn. replace (Nat.min 8 _) with 8%nat by lia. fold (header (resource_bytes d2)).
    unfold resource_bytes. apply header_framed. lia. }
  destruct (check_resource_cases b3 e3 name expected dd ss Sd) as [(r & Er' & V & _)|(_ & _ & G & _)];
    [|rewrite Hd in G; lia].
  rewrite Er'. cbn [fst]. change (omap seen (Ret r)) with (Ret (seen r)).
  destruct (Z.ltb_spec (sl_len sl) (len d2)) as [H3|H3].
  { f_equal. eapply verdict_unframed; [|exact V]. rewrite framed_iff by apply Sd. rewrite Hd, Ldd. lia. }
  assert (Edd : dd = resource_bytes d2).
  { unfold dd. apply firstn_all2. unfold len in *. lia. }
  rewrite Edd in V. unfold resource_bytes in V.
  rewrite (verdict_exact name expected d2 (zeros 8) ss (seen r)) by (reflexivity || exact V). unfold ss.
  destruct (negb _); [reflexivity|]. destruct (bytes_eqb _ _); reflexivity.
Qed.
