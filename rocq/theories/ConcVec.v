(** External vectors and multivectors in processes: what they write, in which
    parts. *)
From Verif Require Import Base BaseFacts Codec CodecSpec CodecFacts Structs StructsSpec StructsFacts.
From Verif Require Import Views ViewsSpec ViewsFacts Storage PathFacts StorageSpec StorageFacts StorageMore StorageUse.
From Verif Require Import Writers WritersSpec HandleFacts EncodeFacts ExtVecFacts MultiViews MultiSpec MultiViewFacts MultiVecFacts.
From Verif Require Import Conc ConcFacts ConcSpec.
Local Open Scope list_scope.
Local Open Scope Z_scope.
Local Arguments firstn : simpl never.
Local Arguments skipn : simpl never.

(** * Bytes of records *)
Lemma lors_bit l k : Z.testbit (fold_right Z.lor 0 l) k = existsb (fun x => Z.testbit x k) l.
Proof. induction l as [|x l IH]; simpl; [apply Z.testbit_0_l|]. rewrite Z.lor_spec, IH. auto. Qed.
Lemma combine_nth' {X Y} (l : list X) (l' : list Y) j x y : length l = length l' -> (j < length l)%nat ->
  nth j (combine l l') (x, y) = (nth j l x, nth j l' y).
Proof. intros. apply combine_nth. auto. Qed.
Lemma field_bit s r j k : wf_struct s -> length r = length (s_fields s) -> (j < length (s_fields s))%nat -> 0 <= k ->
  Z.testbit (Z.shiftl (nth j r 0 mod 2 ^ f_bits (field_nth s j)) (f_off (field_nth s j))) k =
  (f_off (field_nth s j) <=? k) && (k <? f_off (field_nth s j) + f_bits (field_nth s j)) && Z.testbit (nth j r 0) (k - f_off (field_nth s j)).
Proof.
  intros Hwf L Hj Hk. destruct (wf_nth s j Hwf Hj) as (Ho & Hb & _). rewrite Z.shiftl_spec by auto.
  destruct (Z.leb_spec (f_off (field_nth s j)) k) as [H1|H1]; [|rewrite Z.testbit_neg_r by lia; reflexivity].
  destruct (Z.ltb_spec k (f_off (field_nth s j) + f_bits (field_nth s j))) as [H2|H2].
  - rewrite Z.mod_pow2_bits_low by lia. reflexivity.
  - rewrite Z.mod_pow2_bits_high by lia. reflexivity.
Qed.
Lemma record_number_bit s r k : wf_struct s -> length r = length (s_fields s) -> 0 <= k ->
  Z.testbit (record_number s r) k =
  existsb (fun j => (f_off (field_nth s j) <=? k) && (k <? f_off (field_nth s j) + f_bits (field_nth s j)) && Z.testbit (nth j r 0) (k - f_off (field_nth s j)))
    (seq 0 (length (s_fields s))).
Proof.
  intros Hwf L Hk. unfold record_number. rewrite lors_bit.
  assert (E : map (fun x => Z.shiftl (snd x mod 2 ^ f_bits (fst x)) (f_off (fst x))) (combine (s_fields s) r) =
     map (fun j => Z.shiftl (nth j r 0 mod 2 ^ f_bits (field_nth s j)) (f_off (field_nth s j))) (seq 0 (length (s_fields s)))).
  { apply nth_ext with (d := 0) (d' := 0).
    - rewrite !map_length, combine_length, seq_length. lia.
    - intros j Hj. rewrite map_length, combine_length in Hj.
      set (g := fun x : field * Z => _). set (h := fun j : nat => _).
      rewrite (nth_indep (map g _) 0 (g (default_field, 0))) by (rewrite map_length, combine_length; lia).
      rewrite (nth_indep (map h _) 0 (h 0%nat)) by (rewrite map_length, seq_length; lia).
      rewrite !map_nth, combine_nth by auto. rewrite seq_nth by lia. reflexivity. }
  rewrite E. assert (Hl : forall l, (forall j, In j l -> (j < length (s_fields s))%nat) ->
    existsb (fun x => Z.testbit x k) (map (fun j => Z.shiftl (nth j r 0 mod 2 ^ f_bits (field_nth s j)) (f_off (field_nth s j))) l) =
    existsb (fun j => (f_off (field_nth s j) <=? k) && (k <? f_off (field_nth s j) + f_bits (field_nth s j)) && Z.testbit (nth j r 0) (k - f_off (field_nth s j))) l).
  { induction l as [|j l IH]; intros H; cbn [map existsb]; auto. rewrite IH by (intros; apply H; simpl; auto). rewrite field_bit; auto. apply H. simpl. auto. }
  apply Hl. intros j Hj. apply in_seq in Hj. lia.
Qed.
Lemma record_bytes_encodes s r : wf_struct s -> length r = length (s_fields s) -> encodes s (record_bytes s r) r.
Proof.
  intros Hwf L. pose proof Hwf as (Hs & _ & Hd). unfold record_bytes.
  assert (Ln : len (le_bytes (Z.to_nat (s_size s)) (record_number s r)) = s_size s) by (unfold len; rewrite le_bytes_length; lia).
  assert (B : forall k, 0 <= k -> bit_at (le_bytes (Z.to_nat (s_size s)) (record_number s r)) k =
     (k <? 8 * s_size s) && Z.testbit (record_number s r) k).
  { intros k Hk. rewrite le_bytes_bit by auto. rewrite Z2Nat.id by lia. destruct (k <? 8 * s_size s); auto. }
  split; [apply le_bytes_ok|]. split; [auto|]. split; [auto|]. split.
  - intros j i Hj Hi. destruct (wf_nth s j Hwf Hj) as (Ho & _ & Hin & _). rewrite B by lia. rewrite record_number_bit by (auto; lia).
    replace (_ <? _) with true by lia. cbn [andb].
    destruct (Z.testbit (nth j r 0) i) eqn:T.
    + apply existsb_exists. exists j. split; [apply in_seq; lia|]. replace (f_off (field_nth s j) + i - f_off (field_nth s j)) with i by lia. rewrite T. lia.
    + destruct (existsb _ _) eqn:X; auto. apply existsb_exists in X. destruct X as (j' & Hj' & X). apply in_seq in Hj'.
      apply andb_prop in X as [X1 X2]. destruct (Nat.eq_dec j j') as [->|N].
      * replace (f_off (field_nth s j') + i - f_off (field_nth s j')) with i in X2 by lia. congruence.
      * specialize (Hd j j' Hj ltac:(lia) N). unfold disjoint in Hd. lia.
  - intros k Hk Hout. rewrite B by lia. rewrite record_number_bit by auto. destruct (_ <? _); auto. cbn [andb].
    destruct (existsb _ _) eqn:X; auto. apply existsb_exists in X. destruct X as (j & Hj & X). apply in_seq in Hj.
    specialize (Hout j ltac:(lia)). lia.
Qed.
Lemma sets_length s sets : length (apply_sets sets (zero_record s)) = length (s_fields s).
Proof. rewrite apply_sets_length. unfold zero_record. apply map_length. Qed.
Lemma record_bytes_len s r : 0 <= s_size s -> len (record_bytes s r) = s_size s.
Proof. intros H. unfold record_bytes, len. rewrite le_bytes_length. lia. Qed.
Lemma set_bytes b e s sets pre : wf_struct s -> sets_ok s sets ->
  through_handle b e s sets (pre ++ zeros (s_size s) ++ zeros 8) (len pre) = Ret (pre ++ record_bytes s (apply_sets sets (zero_record s)) ++ zeros 8).
Proof.
  intros Hwf Hs. destruct (handle_good b e s sets pre (zeros (s_size s)) (zeros 8) (zero_record s)) as (m & E & (G & _));
    auto using bytes_ok_zeros, good_zero.
  rewrite E. do 3 f_equal. eapply encodes_fun; eauto. apply record_bytes_encodes; auto. apply sets_length.
Qed.
Lemma item_bytes_encodes ts x : wf_vdesc ts -> (fst x < length ts)%nat -> sets_ok (v_struct ts (fst x)) (snd x) ->
  item_encodes ts (item_bytes ts x) (item_value ts x).
Proof.
  intros Hwf Ht Hs. destruct (wf_vdesc_nth ts (fst x) Hwf Ht) as (_ & Hst).
  split; [split; auto; apply record_ok_sets; auto; apply record_ok_zero; auto|].
  eexists. split; [reflexivity|]. cbn [item_value fst snd]. apply record_bytes_encodes; auto. apply sets_length.
Qed.
Lemma items_bytes_bucket ts items : wf_vdesc ts -> items_ok ts items -> bucket_of ts (items_bytes ts items) (map (item_value ts) items).
Proof.
  intros Hwf H. exists (map (item_bytes ts) items). split; auto. induction H as [|x items (Ht & Hs) H IH]; cbn [map]; constructor; auto.
  apply item_bytes_encodes; auto.
Qed.
Lemma item_encodes_one ts m m' x : wf_vdesc ts -> item_encodes ts m x -> item_encodes ts m' x -> m = m'.
Proof.
  intros Hwf ((Ht & _) & b & -> & E) (_ & b' & -> & E'). f_equal. destruct (wf_vdesc_nth ts (fst x) Hwf Ht). eapply encodes_fun; eauto.
Qed.
Lemma bucket_one ts m m' l : wf_vdesc ts -> bucket_of ts m l -> bucket_of ts m' l -> m = m'.
Proof.
  intros Hwf (a & -> & F) (a' & -> & F'). f_equal. revert a' F'.
  induction F as [|x y a l H F IH]; intros a' F'; inversion F'; subst; auto. f_equal; auto. eapply item_encodes_one; eauto.
Qed.
Lemma items_bytes_len ts items : wf_vdesc ts -> items_ok ts items -> len (items_bytes ts items) = items_size ts items.
Proof.
  intros Hwf H. unfold items_bytes. induction H as [|x items (Ht & Hs) H IH]; cbn [map concat items_size]; auto.
  destruct (wf_vdesc_nth ts (fst x) Hwf Ht) as (_ & (Hp & _)).
  rewrite len_app, IH. unfold item_bytes. rewrite len_cons, record_bytes_len by lia. lia.
Qed.
Lemma items_bytes_add b e ts items rest : wf_vdesc ts -> items_ok ts items -> len rest + 8 + len (items_bytes ts items) <= isize_max ->
  items_add b e ts items (rest ++ zeros 8) = Ret ((rest ++ items_bytes ts items) ++ zeros 8).
Proof.
  intros Hwf H L. rewrite items_bytes_len in L by auto. destruct (items_add_ok b e ts items Hwf H rest L) as (bs & E & Bu & _).
  rewrite E, <- app_assoc. do 3 f_equal. eapply bucket_one; eauto. apply items_bytes_bucket; auto.
Qed.

(** * Vectors as chains of writes *)
Section Chains.
Variables (b : build) (e : endian).
Notation done := (prog (result unit rs_error)).
Definition write_then (c : list Z) (n : Z) (s : stream) (G : Z -> stream -> done) : done :=
  pbind (write_all_p s c) (fun r =>
  match r with
  | (Ok _, s) => pbind (Done (uadd b n (len c))) (fun n => G n s)
  | (Er _, _) => Done Panic
  end).
Fixpoint chain (cs : list (list Z)) (n : Z) (s : stream) (G : Z -> stream -> done) : done :=
  match cs with
  | [] => G n s
  | c :: cs => write_then c n s (fun n s => chain cs n s G)
  end.
Definition finish_then (n : Z) (s : stream) (G : done) : done :=
  pbind (finish_p b e n s) (fun r => match r with Ok _ => G | Er _ => Done Panic end).
Definition open_then (base name : string) (schema : list Z) (G : stream -> done) (H : io_kind -> done) : done :=
  pbind (open_p b e base name schema) (fun r => match r with Ok s => G s | Er k => H k end).
Definition vector_core (base name : string) (schema : list Z) (cs : list (list Z)) : done :=
  open_then base name schema (fun s => chain cs 0 s (fun n s => finish_then n s (Done (Ret (Ok tt))))) (fun k => Done (Ret (Er (EIo k name)))).
(** Two files; the first one for [true]. *)
Fixpoint chain2 (cs : list (bool * list Z)) (n1 : Z) (s1 : stream) (n2 : Z) (s2 : stream) (G : Z -> stream -> Z -> stream -> done) : done :=
  match cs with
  | [] => G n1 s1 n2 s2
  | (true, c) :: cs => write_then c n1 s1 (fun n1 s1 => chain2 cs n1 s1 n2 s2 G)
  | (false, c) :: cs => write_then c n2 s2 (fun n2 s2 => chain2 cs n1 s1 n2 s2 G)
  end.
Definition for_file (i : bool) (cs : list (bool * list Z)) : list Z :=
  List.concat (map snd (filter (fun x => Bool.eqb (fst x) i) cs)).
Definition multi_core (base name : string) (schema : list Z) (cs : list (bool * list Z)) : done :=
  open_then base (index_name name) (index_schema schema) (fun s1 =>
    open_then base name schema (fun s2 =>
      chain2 cs 0 s1 0 s2 (fun n1 s1 n2 s2 => finish_then n1 s1 (finish_then n2 s2 (Done (Ret (Ok tt))))))
    (fun _ => Done Panic))
  (fun k => Done (Ret (Er (EIo k name)))).

Lemma write_cong c n s G G' : (forall n s, peq (G n s) (G' n s)) -> peq (write_then c n s G) (write_then c n s G').
Proof.
  intros H. apply peq_bind; [apply peq_refl|]. intros [[u|k] s']; [|apply peq_refl].
  apply peq_bind; [apply peq_refl|]. auto.
Qed.
Lemma chain_cong cs : forall n s G G', (forall n s, peq (G n s) (G' n s)) -> peq (chain cs n s G) (chain cs n s G').
Proof. induction cs as [|c cs IH]; intros n s G G' H; simpl; auto. apply write_cong. auto. Qed.
Lemma chain_app cs cs' : forall n s G, peq (chain cs n s (fun n s => chain cs' n s G)) (chain (cs ++ cs') n s G).
Proof. induction cs as [|c cs IH]; intros n s G; simpl; [apply peq_refl|]. apply write_cong. auto. Qed.
Lemma chain2_first cs cs' G : forall n1 s1 n2 s2,
  peq (chain cs n1 s1 (fun n1 s1 => chain2 cs' n1 s1 n2 s2 G)) (chain2 (map (pair true) cs ++ cs') n1 s1 n2 s2 G).
Proof. induction cs as [|c cs IH]; intros n1 s1 n2 s2; simpl; [apply peq_refl|]. apply write_cong. auto. Qed.
Lemma chain2_second cs cs' G : forall n1 s1 n2 s2,
  peq (chain cs n2 s2 (fun n2 s2 => chain2 cs' n1 s1 n2 s2 G)) (chain2 (map (pair false) cs ++ cs') n1 s1 n2 s2 G).
Proof. induction cs as [|c cs IH]; intros n1 s1 n2 s2; simpl; [apply peq_refl|]. apply write_cong. auto. Qed.
Lemma for_file_app i cs cs' : for_file i (cs ++ cs') = for_file i cs ++ for_file i cs'.
Proof. unfold for_file. rewrite filter_app, map_app, concat_app. auto. Qed.
Lemma for_file_same i cs : for_file i (map (pair i) cs) = List.concat cs.
Proof. unfold for_file. f_equal. induction cs as [|c cs IH]; simpl; auto. rewrite Bool.eqb_reflx. simpl. congruence. Qed.
Lemma for_file_other i i' cs : i' <> i -> for_file i (map (pair i') cs) = [].
Proof.
  intros N. unfold for_file. induction cs as [|c cs IH]; simpl; auto.
  destruct (Bool.eqb i' i) eqn:X; auto. apply Bool.eqb_prop in X. congruence.
Qed.

(** * The bytes that are not yet written are [rest]. *)
Section Vector.
Variables (lim : Z) (st : storage) (name : string) (schema : list Z).
Definition open_handle (s : stream) (n : Z) : handle := mkHandle (Some s) n st name schema.
Lemma flush_peq rest l sm n f : len rest + 8 <= isize_max ->
  (forall k v, is_open (ev_handle v) = true -> f (Er k, v) = Done Panic) ->
  peq (pbind (ev_flush_p b (mkEV (rest ++ zeros 8) l (open_handle sm n))) f)
      (write_then rest n sm (fun n sm => f (Ok tt, mkEV (zeros 8) l (open_handle sm n)))).
Proof.
  intros L Hf. destruct (flush_slice b rest L) as (E1 & d & E2 & E3). unfold ev_flush_p. cbn [ev_data ev_handle ev_len].
  rewrite E1. cbn [pbind]. rewrite E2. cbn [pbind]. rewrite E3. unfold handle_write_p, open_handle. cbn [h_stream h_size h_storage h_name h_schema].
  eapply peq_trans; [apply peq_sym, peq_assoc|]. unfold write_then.
  eapply peq_trans; [apply peq_sym, peq_assoc|]. apply peq_bind; [apply peq_refl|].
  intros [[[]|k] s']; cbn [pbind].
  - destruct (uadd b n (len rest)); simpl; apply peq_refl.
  - rewrite Hf by reflexivity. apply peq_refl.
Qed.
Lemma grow_peq s rest l : wf_struct s -> 0 <= l < isize_max -> len rest + s_size s + 8 <= isize_max ->
  exists cs rest', List.concat cs ++ rest' = rest /\ forall sm n f,
  (forall k v, is_open (ev_handle v) = true -> f (Er k, v) = Done Panic) ->
  peq (pbind (ev_grow_p b lim s (mkEV (rest ++ zeros 8) l (open_handle sm n))) f)
      (chain cs n sm (fun n sm => f (Ok (len rest'), mkEV (rest' ++ zeros (s_size s) ++ zeros 8) (l + 1) (open_handle sm n)))).
Proof.
  intros Hwf Hl L. pose proof Hwf as (Hp & _).
  assert (Go : forall r f, len r + s_size s + 8 <= isize_max -> forall sm n,
    pbind (let old_size := len (ev_data (mkEV (r ++ zeros 8) l (open_handle sm n))) in
      pbind (Done (uadd b old_size (s_size s))) (fun n' =>
      pbind (Done (vec_resize (ev_data (mkEV (r ++ zeros 8) l (open_handle sm n))) n')) (fun data =>
      pbind (Done (uadd b (ev_len (mkEV (r ++ zeros 8) l (open_handle sm n))) 1)) (fun l' =>
      pbind (Done (usub b old_size PADDING_SIZE)) (fun p =>
      pbind (Done (slice_from (whole data) p)) (fun _ =>
      Done (Ret (Ok p : result Z io_kind, mkEV data l' (ev_handle (mkEV (r ++ zeros 8) l (open_handle sm n))))))))))) f =
    (f (Ok (len r), mkEV (r ++ zeros (s_size s) ++ zeros 8) (l + 1) (open_handle sm n)) : done)).
  { intros r f Lr sm n. cbv zeta. cbn [ev_data ev_len ev_handle]. pose proof (len_nonneg r).
    assert (Hnn : len (r ++ zeros 8) = len r + 8) by (rewrite len_app; reflexivity). rewrite Hnn.
    unfold uadd. rewrite wrap_ok by (unfold usize_limit, isize_max in *; lia). cbn [pbind].
    rewrite resize_grow by lia. cbn [pbind].
    rewrite wrap_ok by (unfold usize_limit, isize_max in *; lia). cbn [pbind].
    unfold usub, PADDING_SIZE. rewrite wrap_ok by (unfold usize_limit, isize_max in *; lia). cbn [pbind].
    replace (len r + 8 - 8) with (len r) by lia.
    unfold slice_from. rewrite slice_range_ok by (simpl; rewrite ?len_app, ?len_zeros; lia). reflexivity. }
  unfold ev_grow_p. cbn [ev_data]. destruct (lim <? len (rest ++ zeros 8)).
  - exists [rest], []. split; [simpl; rewrite !app_nil_r; auto|]. intros sm n f Hf. cbn [chain].
    eapply peq_trans; [apply peq_sym, peq_assoc|]. eapply peq_trans; [apply flush_peq|].
    + lia.
    + intros k v Ho. cbn [pbind]. auto.
    + apply write_cong. intros n' s'. pose proof (len_nonneg rest).
      exact (eq_rect_r (fun x => peq x _) (peq_refl _) (Go [] f ltac:(rewrite len_nil; lia) s' n')).
  - exists [], rest. split; [reflexivity|]. intros sm n f Hf. cbn [chain].
    eapply peq_trans; [apply peq_sym, peq_assoc|]. cbn [pbind].
    exact (eq_rect_r (fun x => peq x _) (peq_refl _) (Go rest f ltac:(lia) sm n)).
Qed.
Lemma elements_len s els : wf_struct s -> len (elements_bytes s els) = Z.of_nat (length els) * s_size s.
Proof.
  intros (Hp & _). unfold elements_bytes. induction els as [|x els IH]; [reflexivity|].
  cbn [map List.concat length]. rewrite len_app, IH, record_bytes_len by lia. lia.
Qed.
Lemma ev_finish_peq rest l sm n f : len rest + 8 <= isize_max ->
  peq (pbind (ev_finish_p b e (mkEV (rest ++ zeros 8) l (open_handle sm n))) f)
      (write_then rest n sm (fun n sm => finish_then n sm (f (Ok tt)))).
Proof.
  intros L. unfold ev_finish_p. eapply peq_trans; [apply peq_sym, peq_assoc|].
  eapply peq_trans; [apply flush_peq; auto; intros k v Ho; unfold drop_p; rewrite Ho; reflexivity|].
  apply write_cong. intros n' s'. cbn [ev_handle]. unfold handle_finish_p, open_handle. cbn [h_stream h_size h_name].
  unfold finish_then. eapply peq_trans; [apply peq_sym, peq_assoc|]. eapply peq_trans; [apply peq_sym, peq_assoc|].
  apply peq_bind; [apply peq_refl|]. intros [[]|k]; cbn; apply peq_refl.
Qed.
Lemma ev_fill_peq s els : wf_struct s -> Forall (sets_ok s) els -> forall rest l,
  0 <= l -> l + Z.of_nat (length els) <= isize_max -> len rest + len (elements_bytes s els) + 16 <= isize_max ->
  exists cs, List.concat cs = rest ++ elements_bytes s els /\ forall sm n,
  peq (ptry (fun k => EIo k name) (ev_fill_p b e lim s els (mkEV (rest ++ zeros 8) l (open_handle sm n))) (fun v => ev_finish_p b e v))
      (chain cs n sm (fun n s => finish_then n s (Done (Ret (Ok tt))))).
Proof.
  intros Hwf. pose proof Hwf as (Hp & _). induction els as [|sets els IH]; intros Fs rest l Hl Hn L.
  - exists [rest]. split; [reflexivity|]. intros sm n. unfold ptry. cbn [ev_fill_p pbind chain].
    eapply peq_trans; [apply peq_sym, peq_ret|]. apply ev_finish_peq. change (len (elements_bytes s [])) with 0 in L. lia.
  - inversion Fs as [|? ? Hs Fs']; subst. unfold elements_bytes in L. cbn [map List.concat length] in *. rewrite len_app in L. fold (elements_bytes s els) in L.
    rewrite record_bytes_len in L by lia. assert (L0 := len_nonneg (elements_bytes s els)). assert (L1 := len_nonneg rest).
    destruct (grow_peq s rest l Hwf ltac:(lia) ltac:(lia)) as (cs1 & rest1 & Ec & Pe).
    set (rec := record_bytes s (apply_sets sets (zero_record s))).
    assert (Lr : len rest1 <= len rest) by (rewrite <- Ec, len_app; assert (X := len_nonneg (List.concat cs1)); lia).
    assert (Lrec : len rec = s_size s) by (apply record_bytes_len; lia).
    destruct (IH Fs' (rest1 ++ rec) (l + 1)) as (cs2 & Ec2 & Pe2); try lia; [rewrite len_app; lia|].
    exists (cs1 ++ cs2). split.
    { rewrite concat_app, Ec2, <- Ec. unfold elements_bytes. cbn [map List.concat]. fold rec. rewrite <- !app_assoc. reflexivity. }
    intros sm n. unfold ptry in *. cbn [ev_fill_p]. eapply peq_trans; [apply peq_sym, peq_assoc|].
    eapply peq_trans; [apply Pe|].
    + intros k v Ho. cbn [pbind]. unfold drop_p. rewrite Ho. reflexivity.
    + eapply peq_trans; [apply chain_cong|apply chain_app]. intros n' s'. unfold ev_set_p. cbn [ev_data ev_len ev_handle].
      rewrite set_bytes by auto. fold rec. cbn [pbind]. rewrite app_assoc. apply Pe2.
Qed.
End Vector.

Lemma open_peq base name schema (f : result handle io_kind -> done) :
  peq (pbind (create_handle_p b e base name schema) f)
      (open_then base name schema (fun s => f (Ok (open_handle (FileStorage 0 base) name schema s 0))) (fun k => f (Er k))).
Proof.
  unfold create_handle_p, open_then, ptry. eapply peq_trans; [apply peq_sym, peq_assoc|].
  apply peq_bind; [apply peq_refl|]. intros [s|k]; cbn; apply peq_refl.
Qed.
Lemma open_cong base name schema G G' H H' : (forall s, peq (G s) (G' s)) -> (forall k, peq (H k) (H' k)) ->
  peq (open_then base name schema G H) (open_then base name schema G' H').
Proof. intros Hg Hh. apply peq_bind; [apply peq_refl|]. intros [s|k]; auto. Qed.
Lemma vector_peq lim s base name schema els : wf_struct s -> Forall (sets_ok s) els -> len (elements_bytes s els) + 16 <= isize_max ->
  exists cs, List.concat cs = elements_bytes s els /\ peq (vector_p b e lim s base name schema els) (vector_core base name schema cs).
Proof.
  intros Hwf Fs L. assert (Le := elements_len s els Hwf). pose proof Hwf as (Hp & _).
  destruct (ev_fill_peq lim (FileStorage 0 base) name schema s els Hwf Fs [] 0) as (cs & Ec & Pe); try lia; [nia|rewrite len_nil; lia|].
  exists cs. split; auto. unfold vector_p, vector_core. unfold ptry at 1. eapply peq_trans; [apply open_peq|].
  apply open_cong; [|intros k; apply peq_refl]. intros s'. exact (Pe s' 0).
Qed.

(** * Multivectors: [ri] and [rd] are not yet written, [off] is the size of all
    items so far. *)
Section Multi.
Variables (lim size bits : Z) (ts : vdesc) (base name : string) (schema : list Z).
Notation is := (index_struct size bits).
Notation ih := (open_handle (FileStorage 0 base) (index_name name) (index_schema schema)).
Notation dh := (open_handle (FileStorage 0 base) name schema).
Hypothesis Hwi : wf_struct is.
Hypothesis Hwf : wf_vdesc ts.
Lemma size_pos : 0 < size.
Proof. destruct Hwi as (H & _). exact H. Qed.
Definition mvs (ri rd : list Z) (li fl : Z) (n1 : Z) (s1 : stream) (n2 : Z) (s2 : stream) : multi_vec :=
  mkMV (mkEV (ri ++ zeros 8) li (ih s1 n1)) (rd ++ zeros 8) (dh s2 n2) fl.
Lemma mv_flush_peq ri rd li fl n1 s1 n2 s2 f : 0 <= fl -> fl + len rd + 8 <= isize_max ->
  (forall k v, is_open (mv_handle v) = true -> f (Er k, v) = Done Panic) ->
  peq (pbind (mv_flush_p b (mvs ri rd li fl n1 s1 n2 s2)) f)
      (write_then rd n2 s2 (fun n2 s2 => f (Ok tt, mvs ri [] li (fl + len rd) n1 s1 n2 s2))).
Proof.
  intros Hl L Hf. destruct (flush_slice b rd ltac:(lia)) as (E1 & d & E2 & E3). unfold mv_flush_p, mvs. cbn [mv_data mv_handle mv_index mv_flushed].
  rewrite E1. cbn [pbind]. rewrite E2. cbn [pbind]. rewrite E3. unfold handle_write_p, open_handle. cbn [h_stream h_size h_storage h_name h_schema].
  eapply peq_trans; [apply peq_sym, peq_assoc|]. unfold write_then.
  eapply peq_trans; [apply peq_sym, peq_assoc|]. apply peq_bind; [apply peq_refl|].
  assert (Eu : uadd b fl (len rd) = Ret (fl + len rd)).
  { unfold uadd. assert (X := len_nonneg rd). apply wrap_ok. unfold usize_limit, isize_max in *. lia. }
  intros [[[]|k] s']; cbn [pbind].
  - destruct (uadd b n2 (len rd)); simpl; try apply peq_refl. rewrite Eu. cbn [pbind]. apply peq_refl.
  - rewrite Hf by reflexivity. apply peq_refl.
Qed.
Lemma add_index_peq ri li : 0 <= li < isize_max -> len ri + size + 8 <= isize_max -> forall off, 0 <= off < 2 ^ bits -> off + 16 <= isize_max ->
  exists cs ri', List.concat cs ++ ri' = ri /\ forall rd fl n1 s1 n2 s2 f, 0 <= fl -> fl + len rd = off ->
  (forall k v, is_open (ev_handle (mv_index v)) = true -> f (Er k, v) = Done Panic) ->
  peq (pbind (mv_add_to_index_p b e lim size bits (mvs ri rd li fl n1 s1 n2 s2)) f)
      (chain cs n1 s1 (fun n1 s1 => f (Ok tt, mvs (ri' ++ record_bytes is [off]) rd (li + 1) fl n1 s1 n2 s2))).
Proof.
  intros Hl L off Hb Ho. destruct (grow_peq lim (FileStorage 0 base) (index_name name) (index_schema schema) is ri li Hwi Hl L) as (cs & ri' & Ec & Pe).
  exists cs, ri'. split; auto. intros rd fl n1 s1 n2 s2 f Hfl Eo Hf. unfold mv_add_to_index_p, mvs. cbn [mv_index mv_data mv_handle mv_flushed].
  eapply peq_trans; [apply peq_sym, peq_assoc|]. eapply peq_trans; [apply Pe|].
  - intros k v Hv. cbn [pbind]. apply Hf. exact Hv.
  - apply chain_cong. intros n' s'. assert (Hnn : len (rd ++ zeros 8) = len rd + 8) by (rewrite len_app; reflexivity). rewrite Hnn.
    assert (Hrd := len_nonneg rd).
    unfold uadd. rewrite wrap_ok by (unfold usize_limit, isize_max in *; lia). cbn [pbind].
    unfold usub, PADDING_SIZE. rewrite wrap_ok by (unfold usize_limit, isize_max in *; lia). cbn [pbind].
    replace (fl + (len rd + 8) - 8) with off by lia. unfold ev_set_p. cbn [ev_data ev_len ev_handle].
    assert (Hs : sets_ok is [(0%nat, off)]).
    { constructor; [|constructor]. cbn [fst snd]. split; [simpl; lia|].
      unfold in_range. simpl. lia. }
    rewrite (set_bytes b e is [(0%nat, off)] ri' Hwi Hs). cbn [pbind].
    rewrite app_assoc. apply peq_refl.
Qed.
Lemma finish_cong n s G G' : peq G G' -> peq (finish_then n s G) (finish_then n s G').
Proof. intros H. apply peq_bind; [apply peq_refl|]. intros [u|k]; auto. apply peq_refl. Qed.
Lemma mv_finish_peq ri rd li fl : 0 <= li < isize_max -> len ri + size + 16 <= isize_max -> 0 <= fl ->
  fl + len rd < 2 ^ bits -> fl + len rd + 16 <= isize_max ->
  exists cs, for_file true cs = ri ++ record_bytes is [fl + len rd] /\ for_file false cs = rd /\ forall n1 s1 n2 s2,
  peq (mv_finish_p b e lim size bits (mvs ri rd li fl n1 s1 n2 s2))
      (chain2 cs n1 s1 n2 s2 (fun n1 s1 n2 s2 => finish_then n1 s1 (finish_then n2 s2 (Done (Ret (Ok tt)))))).
Proof.
  intros Hl L Hf Hb Ho. assert (Hrd := len_nonneg rd). assert (Hp := size_pos).
  destruct (add_index_peq ri li Hl ltac:(lia) (fl + len rd) ltac:(lia) Ho) as (cs & ri' & Ec & Pe).
  exists (map (pair true) cs ++ [(false, rd); (true, ri' ++ record_bytes is [fl + len rd])]).
  rewrite !for_file_app, for_file_same, for_file_other by discriminate. unfold for_file. cbn [filter fst Bool.eqb map snd List.concat].
  rewrite !app_nil_r. split; [rewrite app_assoc, Ec; reflexivity|]. split; [reflexivity|].
  intros n1 s1 n2 s2. unfold mv_finish_p. eapply peq_trans; [apply Pe; auto|].
  { intros k v Hv. cbn [pbind]. unfold mv_drop_p. rewrite Hv. reflexivity. }
  eapply peq_trans; [|apply chain2_first]. apply chain_cong. intros n1' s1'. cbn [chain2].
  eapply peq_trans; [apply mv_flush_peq|]; [lia|lia| |].
  { intros k v Hv. cbn [pbind]. unfold mv_drop_p. rewrite Hv, Bool.orb_true_r. reflexivity. }
  apply write_cong. intros n2' s2'. unfold mvs. cbn [mv_index mv_handle].
  assert (Lri : len ri' <= len ri) by (rewrite <- Ec, len_app; assert (X := len_nonneg (List.concat cs)); lia).
  eapply peq_trans; [apply ev_finish_peq|].
  { rewrite len_app, record_bytes_len by (cbn; lia). cbn [s_size index_struct]. lia. }
  apply write_cong. intros n1'' s1''. apply finish_cong. unfold handle_finish_p, open_handle. cbn [h_stream h_size h_name].
  unfold finish_then. eapply peq_trans; [apply peq_sym, peq_assoc|].
  apply peq_bind; [apply peq_refl|]. intros [[]|k]; cbn; apply peq_refl.
Qed.
Notation idx ls a := (List.concat (map (fun x => record_bytes is [x]) (starts a ls))).
Lemma starts_length ls : forall a, length (starts a ls) = S (length ls).
Proof. induction ls as [|l ls IH]; intros a; simpl; auto. Qed.
Lemma idx_len l : len (List.concat (map (fun x => record_bytes is [x]) l)) = Z.of_nat (length l) * size.
Proof.
  assert (Hp := size_pos). induction l as [|x l IH]; [reflexivity|]. cbn [map List.concat length].
  rewrite len_app, IH, record_bytes_len by (cbn; lia). cbn [s_size index_struct]. lia.
Qed.
Lemma mv_fill_peq els : Forall (items_ok ts) els -> forall ri rd li fl,
  0 <= li -> li + Z.of_nat (length els) < isize_max -> 0 <= fl ->
  len ri + len (idx (map (items_bytes ts) els) (fl + len rd)) + 16 <= isize_max ->
  fl + len rd + len (List.concat (map (items_bytes ts) els)) < 2 ^ bits ->
  fl + len rd + len (List.concat (map (items_bytes ts) els)) + 16 <= isize_max ->
  exists cs, for_file true cs = ri ++ idx (map (items_bytes ts) els) (fl + len rd) /\
    for_file false cs = rd ++ List.concat (map (items_bytes ts) els) /\ forall n1 s1 n2 s2,
  peq (ptry (fun k => EIo k name) (mv_fill_p b e lim size bits ts els (mvs ri rd li fl n1 s1 n2 s2)) (fun v => mv_finish_p b e lim size bits v))
      (chain2 cs n1 s1 n2 s2 (fun n1 s1 n2 s2 => finish_then n1 s1 (finish_then n2 s2 (Done (Ret (Ok tt)))))).
Proof.
  assert (Hp := size_pos).
  induction els as [|items els IH]; intros Fs ri rd li fl Hl Hn Hfl Li Lb Ld; assert (Hrd := len_nonneg rd).
  - cbn [map starts List.concat length] in *. rewrite !app_nil_r in *. rewrite record_bytes_len in Li by (cbn; lia). cbn [s_size index_struct] in Li.
    rewrite len_nil in *. unfold ptry. cbn [mv_fill_p pbind]. apply mv_finish_peq; lia.
  - inversion Fs as [|? ? Hi Fs']; subst. cbn [map List.concat length starts] in *.
    set (ib := items_bytes ts items) in *. set (rest := map (items_bytes ts) els) in *.
    rewrite !len_app in Li, Lb, Ld. rewrite record_bytes_len in Li by (cbn; lia). cbn [s_size index_struct] in Li.
    assert (N1 := len_nonneg ri). assert (N2 := len_nonneg ib). assert (N3 := len_nonneg (List.concat rest)).
    assert (N4 := len_nonneg (idx rest (fl + len rd + len ib))).
    destruct (add_index_peq ri li ltac:(lia) ltac:(lia) (fl + len rd) ltac:(lia) ltac:(lia)) as (csi & ri' & Ec & Pe).
    assert (Lri : len ri' <= len ri) by (rewrite <- Ec, len_app; assert (X := len_nonneg (List.concat csi)); lia).
    set (rec := record_bytes is [fl + len rd]).
    assert (Lrec : len rec = size) by (apply record_bytes_len; cbn; lia).
    assert (Z1 : Z.of_nat (S (length els)) = Z.of_nat (length els) + 1) by lia. rewrite Z1 in Hn.
    assert (Go : forall rd' fl', 0 <= fl' -> fl' + len rd' = fl + len rd -> exists cs,
      for_file true cs = ri' ++ rec ++ idx rest (fl + len rd + len ib) /\ for_file false cs = rd' ++ ib ++ List.concat rest /\
      forall n1 s1 n2 s2,
      peq (ptry (fun k => EIo k name) (mv_fill_p b e lim size bits ts els (mvs (ri' ++ rec) (rd' ++ ib) (li + 1) fl' n1 s1 n2 s2)) (fun v => mv_finish_p b e lim size bits v))
        (chain2 cs n1 s1 n2 s2 (fun n1 s1 n2 s2 => finish_then n1 s1 (finish_then n2 s2 (Done (Ret (Ok tt))))))).
    { intros rd' fl' H1 H2. assert (Lx : fl' + len (rd' ++ ib) = fl + len rd + len ib) by (rewrite len_app; lia).
      destruct (IH Fs' (ri' ++ rec) (rd' ++ ib) (li + 1) fl') as (cs & C1 & C2 & C3); try lia; rewrite ?Lx; fold rest; try lia.
      - rewrite len_app. lia.
      - fold rest in C1, C2. rewrite Lx in C1. rewrite <- !app_assoc in C1. rewrite <- !app_assoc in C2.
        exists cs. split; [exact C1|]. split; [exact C2|exact C3]. }
    unfold ptry in *. cbn [mv_fill_p]. unfold mv_grow_p. cbn [mv_data mvs].
    assert (Tail : forall rd' fl' cs, 0 <= fl' -> fl' + len rd' = fl + len rd ->
      (forall n1 s1 n2 s2, peq (pbind (mv_fill_p b e lim size bits ts els (mvs (ri' ++ rec) (rd' ++ ib) (li + 1) fl' n1 s1 n2 s2))
         (fun r => match r with Ok a => mv_finish_p b e lim size bits a | Er x => Done (Ret (Er (EIo x name))) end))
        (chain2 cs n1 s1 n2 s2 (fun n1 s1 n2 s2 => finish_then n1 s1 (finish_then n2 s2 (Done (Ret (Ok tt))))))) ->
      forall n1 s1 n2 s2,
      peq (pbind (mv_add_to_index_p b e lim size bits (mvs ri rd' li fl' n1 s1 n2 s2))
         (fun r => pbind match r with
            | (Ok _, v) => pbind (mv_add_p b e ts items v) (fun v => mv_fill_p b e lim size bits ts els v)
            | (Er k, v) => pbind (mv_drop_p v) (fun _ => Done (Ret (Er k)))
            end (fun r => match r with Ok a => mv_finish_p b e lim size bits a | Er x => Done (Ret (Er (EIo x name))) end)))
        (chain2 (map (pair true) csi ++ cs) n1 s1 n2 s2 (fun n1 s1 n2 s2 => finish_then n1 s1 (finish_then n2 s2 (Done (Ret (Ok tt))))))).
    { intros rd' fl' cs H1 H2 Pc n1 s1 n2 s2. eapply peq_trans; [apply Pe; auto|].
      - intros k v Hv. cbn [pbind]. unfold mv_drop_p. rewrite Hv. reflexivity.
      - eapply peq_trans; [|apply chain2_first]. apply chain_cong. intros n1' s1'. unfold mv_add_p. cbn [mv_data mvs].
        rewrite items_bytes_add; auto; [|fold ib; lia]. fold ib. cbn [pbind mv_index mv_handle mv_flushed]. exact (Pc n1' s1' n2 s2). }
    destruct (lim <? len (rd ++ zeros 8)).
    + destruct (Go [] (fl + len rd) ltac:(lia) ltac:(rewrite len_nil; lia)) as (cs & C1 & C2 & C3). cbn [app] in C2.
      exists (map (pair false) [rd] ++ map (pair true) csi ++ cs).
      rewrite !for_file_app, !for_file_same, !for_file_other by discriminate. rewrite C1, C2. cbn [List.concat app]. rewrite app_nil_r.
      split; [rewrite <- Ec; rewrite <- !app_assoc; reflexivity|]. split; [reflexivity|].
      intros n1 s1 n2 s2. eapply peq_trans; [apply peq_sym, peq_assoc|]. eapply peq_trans; [apply peq_sym, peq_assoc|].
      eapply peq_trans; [apply mv_flush_peq|]; [lia|lia| |].
      * intros k v Hv. cbn [pbind]. unfold mv_drop_p. rewrite Hv, Bool.orb_true_r. reflexivity.
      * eapply peq_trans; [|apply chain2_second]. cbn [chain]. apply write_cong. intros n2' s2'.
        apply (Tail [] (fl + len rd)); [lia|rewrite len_nil; lia|exact C3].
    + destruct (Go rd fl ltac:(lia) eq_refl) as (cs & C1 & C2 & C3).
      exists (map (pair true) csi ++ cs).
      rewrite !for_file_app, !for_file_same, !for_file_other by discriminate. rewrite C1, C2. cbn [List.concat app].
      split; [rewrite <- Ec; rewrite <- !app_assoc; reflexivity|]. split; [reflexivity|].
      intros n1 s1 n2 s2. cbn [pbind]. eapply peq_trans; [apply peq_sym, peq_assoc|].
      apply (Tail rd fl); auto.
Qed.
Lemma multi_peq els : Forall (items_ok ts) els ->
  len (List.concat (map (items_bytes ts) els)) < 2 ^ bits ->
  len (List.concat (map (items_bytes ts) els)) + 16 <= isize_max -> len (index_bytes size bits ts els) + 16 <= isize_max ->
  exists cs, for_file true cs = index_bytes size bits ts els /\ for_file false cs = List.concat (map (items_bytes ts) els) /\
    peq (multi_p b e lim size bits ts base name schema els) (multi_core base name schema cs).
Proof.
  intros Fs L1 L2 L3. assert (Hp := size_pos). assert (Li := idx_len (starts 0 (map (items_bytes ts) els))).
  rewrite starts_length, map_length in Li. unfold index_bytes in *.
  destruct (mv_fill_peq els Fs [] [] 0 0) as (cs & C1 & C2 & C3); 
    try (change (len (@nil Z)) with 0; rewrite ?Z.add_0_l; lia); [nia|].
  - change (0 + len (@nil Z)) with 0 in C1. exists cs. split; [exact C1|]. split; [exact C2|]. unfold multi_p, multi_core, create_multi_p, ptry in *.
    eapply peq_trans; [apply peq_sym, peq_assoc|]. eapply peq_trans; [apply open_peq|].
    apply open_cong; [|intros k; apply peq_refl]. intros s1.
    eapply peq_trans; [apply peq_sym, peq_assoc|]. eapply peq_trans; [apply open_peq|].
    apply open_cong; [|intros k; apply peq_refl]. intros s2. cbn [pbind]. exact (C3 0 s1 0 s2).
Qed.
End Multi.

(** * What comes after *)
Lemma write_push c n s G (f : result unit rs_error -> done) : peq (pbind (write_then c n s G) f) (write_then c n s (fun n s => pbind (G n s) f)).
Proof.
  unfold write_then. eapply peq_trans; [apply peq_sym, peq_assoc|]. apply peq_bind; [apply peq_refl|].
  intros [[u|k] s']; [|apply peq_refl]. destruct (uadd b n (len c)); apply peq_refl.
Qed.
Lemma chain_push cs G (f : result unit rs_error -> done) : forall n s,
  peq (pbind (chain cs n s G) f) (chain cs n s (fun n s => pbind (G n s) f)).
Proof.
  induction cs as [|c cs IH]; intros n s; cbn [chain]; [apply peq_refl|]. eapply peq_trans; [apply write_push|]. apply write_cong. auto.
Qed.
Lemma chain2_push cs G (f : result unit rs_error -> done) : forall n1 s1 n2 s2,
  peq (pbind (chain2 cs n1 s1 n2 s2 G) f) (chain2 cs n1 s1 n2 s2 (fun n1 s1 n2 s2 => pbind (G n1 s1 n2 s2) f)).
Proof.
  induction cs as [|[[|] c] cs IH]; intros n1 s1 n2 s2; cbn [chain2]; [apply peq_refl| |];
    (eapply peq_trans; [apply write_push|]; apply write_cong; auto).
Qed.
Lemma chain2_cong cs G G' : (forall n1 s1 n2 s2, peq (G n1 s1 n2 s2) (G' n1 s1 n2 s2)) -> forall n1 s1 n2 s2,
  peq (chain2 cs n1 s1 n2 s2 G) (chain2 cs n1 s1 n2 s2 G').
Proof. intros H. induction cs as [|[[|] c] cs IH]; intros n1 s1 n2 s2; cbn [chain2]; auto; apply write_cong; auto. Qed.
Lemma finish_push n s G (f : result unit rs_error -> done) : peq (pbind (finish_then n s G) f) (finish_then n s (pbind G f)).
Proof.
  unfold finish_then. eapply peq_trans; [apply peq_sym, peq_assoc|]. apply peq_bind; [apply peq_refl|]. intros [u|k]; apply peq_refl.
Qed.
Lemma open_push base name schema G H (f : result unit rs_error -> done) :
  peq (pbind (open_then base name schema G H) f) (open_then base name schema (fun s => pbind (G s) f) (fun k => pbind (H k) f)).
Proof.
  unfold open_then. eapply peq_trans; [apply peq_sym, peq_assoc|]. apply peq_bind; [apply peq_refl|]. intros [u|k]; apply peq_refl.
Qed.
Definition vector_then (base name : string) (schema : list Z) (cs : list (list Z)) (f : result unit rs_error -> done) : done :=
  open_then base name schema (fun s => chain cs 0 s (fun n s => finish_then n s (f (Ok tt)))) (fun k => f (Er (EIo k name))).
Definition multi_then (base name : string) (schema : list Z) (cs : list (bool * list Z)) (f : result unit rs_error -> done) : done :=
  open_then base (index_name name) (index_schema schema) (fun s1 =>
    open_then base name schema (fun s2 =>
      chain2 cs 0 s1 0 s2 (fun n1 s1 n2 s2 => finish_then n1 s1 (finish_then n2 s2 (f (Ok tt)))))
    (fun _ => Done Panic))
  (fun k => f (Er (EIo k name))).
Lemma vector_core_then base name schema cs f : peq (pbind (vector_core base name schema cs) f) (vector_then base name schema cs f).
Proof.
  eapply peq_trans; [apply open_push|]. apply open_cong; [|intros k; apply peq_refl]. intros s.
  eapply peq_trans; [apply chain_push|]. apply chain_cong. intros n' s'. eapply peq_trans; [apply finish_push|]. apply peq_refl.
Qed.
Lemma multi_core_then base name schema cs f : peq (pbind (multi_core base name schema cs) f) (multi_then base name schema cs f).
Proof.
  eapply peq_trans; [apply open_push|]. apply open_cong; [|intros k; apply peq_refl]. intros s1.
  eapply peq_trans; [apply open_push|]. apply open_cong; [|intros k; apply peq_refl]. intros s2.
  eapply peq_trans; [apply chain2_push|]. apply chain2_cong. intros n1' s1' n2' s2'.
  eapply peq_trans; [apply finish_push|]. apply finish_cong. eapply peq_trans; [apply finish_push|]. apply peq_refl.
Qed.
Lemma vector_job lim s base name schema els f : job_typed (JVector b e lim s base name schema els) ->
  exists cs, List.concat cs = elements_bytes s els /\
    peq (vector_then base name schema cs f) (pbind (job_p (JVector b e lim s base name schema els)) f).
Proof.
  intros (Hwf & Fs & L). destruct (vector_peq lim s base name schema els Hwf Fs L) as (cs & E & Pe). exists cs. split; auto.
  apply peq_sym. eapply peq_trans; [|apply vector_core_then]. apply peq_bind; [exact Pe|]. intros x. apply peq_refl.
Qed.
Lemma multi_job lim size bits ts base name schema els f : job_typed (JMulti b e lim size bits ts base name schema els) ->
  exists cs, for_file true cs = index_bytes size bits ts els /\ for_file false cs = List.concat (map (items_bytes ts) els) /\
    peq (multi_then base name schema cs f) (pbind (job_p (JMulti b e lim size bits ts base name schema els)) f).
Proof.
  intros (Hwi & Hwf & Fs & L1 & L2 & L3). destruct (multi_peq lim size bits ts base name schema Hwi Hwf els Fs L1 L2 L3) as (cs & E1 & E2 & Pe).
  exists cs. split; auto. split; auto.
  apply peq_sym. eapply peq_trans; [|apply multi_core_then]. apply peq_bind; [exact Pe|]. intros x. apply peq_refl.
Qed.
End Chains.

(** The files of a multivector are four. *)
Lemma multi_keys base name : valid_name name -> let k n := key_of (path_join base n) in
  NoDup [k name; k (schema_name name); k (index_name name); k (schema_name (index_name name))].
Proof.
  intros V k. assert (Vi := valid_index name V). destruct (index_unrelated name) as (U1 & U2 & U3).
  assert (Inj : forall a c, valid_name a -> valid_name c -> a <> c -> k a <> k c).
  { intros a c Va Vc N E. apply N. exact (res_key_inj (FileStorage 0 base) a c Va Vc E). }
  assert (S1 : k (schema_name name) <> k name) by exact (res_key_schema (FileStorage 0 base) name).
  assert (S2 : k (schema_name (index_name name)) <> k (index_name name)) by exact (res_key_schema (FileStorage 0 base) (index_name name)).
  assert (Vs := valid_schema name V). assert (Vis := valid_schema _ Vi).
  assert (X1 := Inj name (index_name name) V Vi U1). assert (X2 := Inj _ _ V Vis U2). assert (X3 := Inj _ _ Vi Vs U3).
  assert (X4 : k (schema_name name) <> k (schema_name (index_name name))).
  { apply Inj; auto. unfold schema_name, index_name. intros H. apply (f_equal String.length) in H. rewrite !sapp_length in H. simpl in H. lia. }
  repeat constructor; simpl; intuition congruence.
Qed.
