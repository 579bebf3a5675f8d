(** What processes that fail and die leave in files that they share. *)
From Verif Require Import Base BaseFacts Codec CodecSpec CodecFacts Storage PathFacts StorageSpec StorageFacts StorageMore Structs Writers MultiVecFacts.
From Verif Require Import Conc ConcFacts ConcSpec ConcVec ConcUse ConcFail ConcFailSpec ConcFailFacts ConcFailUse.
Local Open Scope list_scope.
Local Open Scope Z_scope.

(** What is written belongs to the file [cy] at this place, or is 0. *)
Definition fits (cy : list Z) (q : Z) (d : list Z) : Prop :=
  0 <= q /\ q + len d <= len cy /\
  forall i, (i < length d)%nat -> nth i d 0 = 0 \/ nth i d 0 = nth (Z.to_nat q + i) cy 0.
Lemma fits_first cy q d j : fits cy q d -> fits cy q (firstn j d).
Proof.
  intros (H1 & H2 & H3). split; auto. assert (L := firstn_length j d). split; [unfold len in *; lia|].
  intros i Hi. rewrite nth_firstn_lt by lia. apply H3. lia.
Qed.
Lemma fits_rest cy q d j : (j <= length d)%nat -> fits cy q d -> fits cy (q + Z.of_nat j) (skipn j d).
Proof.
  intros Hj (H1 & H2 & H3). assert (L := skipn_length j d). split; [lia|]. split; [unfold len in *; lia|].
  intros i Hi. rewrite nth_skipn_add. replace (Z.to_nat (q + Z.of_nat j) + i)%nat with (Z.to_nat q + (j + i))%nat by lia. apply H3. lia.
Qed.

Section Puts.
Variable want : key -> list Z -> Prop.
(** Programs that write only to files they have created ([cr]), and there only
    what [want] allows. *)
Inductive puts {A} (R : list key -> A -> Prop) : list key -> prog A -> Prop :=
| pu_ret cr a : R cr a -> puts R cr (Done (Ret a))
| pu_bad cr o : (forall a, o <> Ret a) -> puts R cr (Done o)
| pu_stat cr k f : (forall x, puts R cr (f x)) -> puts R cr (Stat k f)
| pu_mkdirs cr k f : (forall x, puts R cr (f x)) -> puts R cr (MkDirs k f)
| pu_create cr k cy f : want k cy -> puts R (k :: cr) (f (Ok (SFile k 0))) -> (forall x, puts R cr (f (Er x))) -> puts R cr (CreateFile k f)
| pu_seek cr f : (forall x, puts R cr (f x)) -> puts R cr (Seek f)
| pu_put cr k q d cy f : In k cr -> want k cy -> fits cy q d -> puts R cr (f (Ok tt, SFile k (q + len d))) ->
    (forall x s, puts R cr (f (Er x, s))) -> puts R cr (PutAt k q d f).
Lemma puts_bind {A B} (R : list key -> A -> Prop) (Q : list key -> B -> Prop) cr p g : puts R cr p ->
  (forall cr' a, R cr' a -> puts Q cr' (g a)) -> puts Q cr (pbind p g).
Proof.
  intros H K. induction H as [cr a H|cr o H|cr k f H IH|cr k f H IH|cr k cy f W H IH Hx IHx|cr f H IH|cr k q d cy f Hk W Hf H IH Hx IHx]; simpl.
  - auto.
  - destruct o as [a| | |]; try (apply pu_bad; discriminate). destruct (H a eq_refl).
  - constructor. auto.
  - constructor. auto.
  - eapply pu_create; eauto.
  - constructor. auto.
  - eapply pu_put; eauto.
Qed.
Lemma puts_weaken {A} (R Q : list key -> A -> Prop) cr p : puts R cr p -> (forall cr a, R cr a -> Q cr a) -> puts Q cr p.
Proof. intros H K. induction H; econstructor; eauto. Qed.
Lemma puts_incl {A} (R : list key -> A -> Prop) cr p : puts R cr p -> puts (fun cr' a => R cr' a /\ incl cr cr') cr p.
Proof.
  intros H. induction H as [cr a H|cr o H|cr k f H IH|cr k f H IH|cr k cy f W H IH Hx IHx|cr f H IH|cr k q d cy f Hk W Hf H IH Hx IHx].
  - constructor. split; auto. intros x. auto.
  - apply pu_bad. auto.
  - constructor. auto.
  - constructor. auto.
  - eapply pu_create; eauto. eapply puts_weaken; [exact IH|]. intros cr' a (Ha & Hi). split; auto. intros x Hx'. apply Hi. right. auto.
  - constructor. auto.
  - eapply pu_put; eauto.
Qed.
Lemma puts_peq {A} (R : list key -> A -> Prop) cr p q : puts R cr p -> peq p q -> puts R cr q.
Proof.
  intros H. revert q. induction H as [cr a H|cr o H|cr k f H IH|cr k f H IH|cr k cy f W H IH Hx IHx|cr f H IH|cr k q d cy f Hk W Hf H IH Hx IHx];
    intros q' Q; inversion Q; subst.
  - constructor. eauto.
  - apply pu_bad. auto.
  - constructor. eauto.
  - constructor. eauto.
  - apply pu_create with (cy := cy); eauto.
  - constructor. eauto.
  - apply pu_put with (cy := cy); eauto.
Qed.
(** Results of calls on files: the stream stands at [q] of file [k]. *)
Definition at_pos (k : key) (q : Z) (cr : list key) (r : result unit io_kind * stream) : Prop :=
  match r with (Ok _, s) => s = SFile k q /\ In k cr | _ => True end.
Definition opened (k : key) (cr : list key) (r : result stream io_kind) : Prop :=
  match r with Ok s => s = SFile k 0 /\ In k cr | _ => True end.
Definition anyway {X} (cr : list key) (r : X) : Prop := True.
Lemma puts_try {A B E G} (conv : E -> G) (R : list key -> A -> Prop) (Q : list key -> result B G -> Prop) cr p g :
  puts (fun cr r => match r with Ok a => R cr a | Er _ => True end) cr p ->
  (forall cr' a, R cr' a -> puts Q cr' (g a)) -> (forall cr' x, Q cr' (Er x)) -> puts Q cr (ptry conv p g).
Proof. intros H K Ke. eapply puts_bind; [exact H|]. intros cr' [a|x] Ha; auto. constructor. auto. Qed.
Lemma puts_stry {B} k q (Q : list key -> result B io_kind -> Prop) cr p g :
  puts (at_pos k q) cr p -> (forall cr', In k cr' -> puts Q cr' (g (SFile k q))) -> (forall cr' x, Q cr' (Er x)) -> puts Q cr (pstry p g).
Proof.
  intros H K Ke. eapply puts_bind; [exact H|]. intros cr' [[u|x] s] Ha; simpl in Ha; [destruct Ha as (-> & Ha); auto|]. constructor. auto.
Qed.
Lemma puts_write cr k q d cy : In k cr -> want k cy -> fits cy q d -> puts (at_pos k (q + len d)) cr (write_all_p (SFile k q) d).
Proof.
  intros Hk W Hf. destruct d as [|x d]; simpl.
  - constructor. simpl. split; auto. f_equal. unfold len. simpl. lia.
  - eapply pu_put; eauto; [constructor; simpl; auto|]. intros y s. constructor. simpl. auto.
Qed.
Lemma puts_open cr base name cy : want (key_of (path_join base name)) cy ->
  puts (opened (key_of (path_join base name))) cr (create_output_stream_p base name).
Proof.
  intros W. unfold create_output_stream_p. constructor. intros x.
  apply (puts_try _ anyway); [destruct x; [constructor; exact I|constructor; intros [u|e]; constructor; exact I]| |intros; exact I].
  intros cr' _ _. eapply pu_create; eauto; [constructor; simpl; auto|]. intros e. constructor. simpl. auto.
Qed.
Lemma puts_size b e cr k q v cy : In k cr -> want k cy -> fits cy q (le_bytes 8 v) ->
  puts (at_pos k (q + 8)) cr (write_size_p b e v (SFile k q)).
Proof.
  intros Hk W Hf. unfold write_size_p. rewrite write_size_bytes. cbn [pbind].
  assert (H := puts_write cr k q (le_bytes 8 v) cy Hk W Hf). assert (L : len (le_bytes 8 v) = 8) by reflexivity. rewrite L in H. exact H.
Qed.
Lemma fits_piece a d c : fits (a ++ d ++ c) (len a) d.
Proof.
  split; [unfold len; lia|]. split; [unfold len; rewrite !app_length; lia|]. intros i Hi. right.
  unfold len. rewrite Nat2Z.id, app_nth2 by lia. rewrite app_nth1 by lia. f_equal. lia.
Qed.
Lemma fits_zeros cy q n : 0 <= q -> 0 <= n -> q + n <= len cy -> fits cy q (zeros n).
Proof.
  intros H1 H2 H3. unfold zeros. split; auto. split; [unfold len in *; rewrite repeat_length; lia|]. intros i Hi. left. apply nth_repeat.
Qed.
Lemma res_len data : len (resource_bytes data) = len data + 16.
Proof. unfold resource_bytes, framed, len, zeros. rewrite !app_length, le_bytes_length, repeat_length. lia. Qed.

Section Call.
Variables (base name : string) (schema data : list Z).
Let k := key_of (path_join base name).
Let ks := key_of (path_join base (schema_name name)).
Hypothesis Wk : want k (resource_bytes data).
Hypothesis Ws : want ks schema.
Lemma puts_schema cr : In ks cr -> puts (fun _ _ => True) cr (write_schema_p schema (SFile ks 0)).
Proof.
  intros Hc. unfold write_schema_p. apply (puts_stry ks (0 + len schema)); [|intros; constructor; auto|auto].
  apply puts_write with (cy := schema); auto. assert (H := fits_piece [] schema []). simpl in H. rewrite app_nil_r in H. exact H.
Qed.
Lemma puts_write_p b e cr : puts (fun _ _ => True) cr (write_p b e base name schema data).
Proof.
  unfold write_p. apply (puts_try _ (fun cr s => s = SFile k 0 /\ In k cr)); [apply puts_open with (cy := resource_bytes data); exact Wk| |auto].
  intros cr1 s (-> & Hc). apply (puts_try _ anyway); [| |auto].
  - unfold write_to_stream_p.
    apply (puts_stry k (0 + 8)); [apply puts_size with (cy := resource_bytes data); auto; exact (fits_piece [] (le_bytes 8 (len data)) (data ++ zeros PADDING_SIZE))| |auto].
    intros cr2 Hc2. apply (puts_stry k (0 + 8 + len data)).
    + apply puts_write with (cy := resource_bytes data); auto. exact (fits_piece (le_bytes 8 (len data)) data (zeros PADDING_SIZE)).
    + intros cr3 Hc3. apply (puts_stry k (0 + 8 + len data + len (zeros PADDING_SIZE))); [|intros; constructor; exact I|auto].
      apply puts_write with (cy := resource_bytes data); auto. apply fits_zeros; [unfold len; lia|unfold PADDING_SIZE; lia|].
      rewrite res_len. unfold PADDING_SIZE. lia.
    + auto.
  - intros cr2 _ _. apply (puts_try _ (fun cr s => s = SFile ks 0 /\ In ks cr)); [apply puts_open with (cy := schema); exact Ws| |auto].
    intros cr3 s (-> & Hc3). apply puts_schema. auto.
Qed.
Lemma puts_chunks b cs : forall a rest n cr, data = a ++ List.concat cs ++ rest -> n = len a -> len data <= isize_max -> In k cr ->
  puts (fun cr r => match r with Ok x => x = (n + len (List.concat cs), SFile k (8 + len a + len (List.concat cs))) /\ In k cr | Er _ => True end)
    cr (chunks_p b cs n (SFile k (8 + len a))).
Proof.
  induction cs as [|c cs IH]; intros a rest n cr Ed En Hd Hc.
  - constructor. simpl. unfold len at 2 4. simpl. rewrite !Z.add_0_r. auto.
  - cbn [chunks_p]. apply (puts_stry k (8 + len a + len c)).
    + apply puts_write with (cy := resource_bytes data); auto.
      replace (8 + len a) with (len (le_bytes 8 (len data) ++ a)) by (rewrite len_app; reflexivity).
      replace (resource_bytes data) with ((le_bytes 8 (len data) ++ a) ++ c ++ List.concat cs ++ rest ++ zeros PADDING_SIZE); [apply fits_piece|].
      unfold resource_bytes, framed. rewrite Ed at 3. simpl. rewrite <- !app_assoc. reflexivity.
    + intros cr1 Hc1.
      assert (X : uadd b n (len c) = Ret (n + len c)).
      { unfold uadd, wrap_or_panic. destruct (_ && _) eqn:C; auto. exfalso. rewrite Ed in Hd. simpl in Hd. rewrite !len_app in Hd.
        unfold usize_limit, isize_max, len in *. lia. }
      rewrite X. cbn [pbind]. replace (8 + len a + len c) with (8 + len (a ++ c)) by (rewrite len_app; lia).
      assert (H := IH (a ++ c) rest (n + len c) cr1). simpl List.concat. rewrite (len_app c (List.concat cs)).
      replace (n + (len c + len (List.concat cs))) with (n + len c + len (List.concat cs)) by lia.
      replace (8 + len a + (len c + len (List.concat cs))) with (8 + len (a ++ c) + len (List.concat cs)) by (rewrite len_app; lia).
      apply H; auto; [rewrite Ed; simpl; rewrite <- !app_assoc; reflexivity|rewrite len_app; lia].
    + auto.
Qed.
Definition ready_at (q : Z) (cr : list key) (r : result stream io_kind) : Prop :=
  match r with Ok s => s = SFile k q /\ In k cr | Er _ => True end.
Lemma puts_open_p b e cr : puts (ready_at 8) cr (open_p b e base name schema).
Proof.
  unfold open_p.
  apply (puts_try _ (fun cr s => s = SFile ks 0 /\ In ks cr)); [apply puts_open with (cy := schema); exact Ws| |intros; exact I].
  intros cr1 s (-> & Hc1). apply (puts_try _ anyway); [| |intros; exact I].
  { eapply puts_weaken; [apply puts_schema; exact Hc1|]. intros cr' [a|x] _; exact I. }
  intros cr2 _ _.
  apply (puts_try _ (fun cr s => s = SFile k 0 /\ In k cr)); [apply puts_open with (cy := resource_bytes data); exact Wk| |intros; exact I].
  intros cr3 s (-> & Hc3). assert (Lr := res_len data).
  apply (puts_stry k (0 + 8)); [apply puts_size with (cy := resource_bytes data); auto; apply (fits_zeros _ 0 8); unfold len in *; lia| |intros; exact I].
  intros cr4 Hc4. constructor. split; auto.
Qed.
Lemma puts_finish_p b e cr : In k cr -> puts (fun cr' _ => In k cr') cr (finish_p b e (len data) (SFile k (8 + len data))).
Proof.
  intros Hc5. assert (Lr := res_len data). eapply puts_weaken; [apply (puts_incl (fun _ _ => True))|]; [|intros cr' x (_ & Hi); apply Hi; exact Hc5].
  unfold finish_p.
  apply (puts_stry k (8 + len data + len (zeros PADDING_SIZE))).
  - apply puts_write with (cy := resource_bytes data); auto. apply fits_zeros; [unfold len; lia|unfold PADDING_SIZE; lia|].
    rewrite Lr. unfold PADDING_SIZE. lia.
  - intros cr6 Hc6. apply (puts_stry k 0).
    + unfold seek_start_p. constructor. intros [u|y]; constructor; simpl; auto.
    + intros cr7 Hc7. apply (puts_stry k (0 + 8)); [apply puts_size with (cy := resource_bytes data); auto; exact (fits_piece [] (le_bytes 8 (len data)) (data ++ zeros PADDING_SIZE))|intros; constructor; auto|auto].
    + auto.
  - auto.
Qed.
Lemma puts_stream_p b e cs cr : data = List.concat cs -> len data <= isize_max -> puts (fun _ _ => True) cr (stream_p b e base name schema cs).
Proof.
  intros Ed Hd. unfold stream_p. apply (puts_try _ (fun cr s => s = SFile k 8 /\ In k cr)); [apply puts_open_p| |auto].
  intros cr4 s (-> & Hc4). apply (puts_try _ (fun cr x => x = (len data, SFile k (8 + len data)) /\ In k cr)); [| |auto].
  - assert (H := puts_chunks b cs [] [] 0 cr4). simpl in H. rewrite app_nil_r, <- Ed in H. unfold len in H at 1 4 6. simpl in H. rewrite ?Z.add_0_r in H.
    apply H; auto.
  - intros cr5 x (-> & Hc5). cbn [fst snd]. eapply puts_weaken; [apply puts_finish_p; exact Hc5|]. auto.
Qed.
End Call.

Section Vectors.
Variable Q : list key -> result unit rs_error -> Prop.
Lemma puts_write_then b cr k q d cy n m G : In k cr -> want k cy -> fits cy q d -> 0 <= n -> 0 <= m -> n + (len d + m) <= isize_max ->
  (forall cr', incl cr cr' -> puts Q cr' (G (n + len d) (SFile k (q + len d)))) -> puts Q cr (write_then b d n (SFile k q) G).
Proof.
  intros Hk W Hf Hn Hm Hl H. unfold write_then. eapply puts_bind; [apply puts_incl, puts_write with (cy := cy); eauto|].
  intros cr' [[u|x] s] (Ha & Hi); simpl in Ha; [|apply pu_bad; discriminate]. destruct Ha as (-> & Ha).
  rewrite (size_adds b n d m) by auto. cbn [pbind]. auto.
Qed.
Lemma fits_next a c cs rest data : data = a ++ (c ++ cs) ++ rest -> fits (resource_bytes data) (8 + len a) c.
Proof.
  intros Ed. replace (8 + len a) with (len (le_bytes 8 (len data) ++ a)) by (rewrite len_app; reflexivity).
  replace (resource_bytes data) with ((le_bytes 8 (len data) ++ a) ++ c ++ cs ++ rest ++ zeros PADDING_SIZE); [apply fits_piece|].
  unfold resource_bytes, framed. rewrite Ed at 3. rewrite <- !app_assoc. reflexivity.
Qed.
Lemma puts_chain b k data cs : want k (resource_bytes data) -> len data <= isize_max -> forall a cr G, data = a ++ List.concat cs -> In k cr ->
  (forall cr', incl cr cr' -> puts Q cr' (G (len data) (SFile k (8 + len data)))) -> puts Q cr (chain b cs (len a) (SFile k (8 + len a)) G).
Proof.
  intros W Hl. induction cs as [|c cs IH]; intros a cr G Ed Hk H; cbn [chain List.concat] in *.
  - rewrite app_nil_r in Ed. subst a. apply H. intros x. auto.
  - assert (Ld : len data = len a + (len c + len (List.concat cs))) by (rewrite Ed, !len_app; lia).
    assert (X1 := len_nonneg a). assert (X2 := len_nonneg c). assert (X3 := len_nonneg (List.concat cs)).
    apply puts_write_then with (cy := resource_bytes data) (m := len (List.concat cs)); auto; try lia.
    + apply (fits_next a c (List.concat cs) []). rewrite app_nil_r. auto.
    + intros cr' Hi. rewrite <- Z.add_assoc, <- len_app. apply IH; [rewrite Ed, <- app_assoc; reflexivity|auto|].
      intros cr'' Hi'. apply H. eapply incl_tran; eauto.
Qed.
Lemma puts_chain2 b k1 k2 data1 data2 cs : want k1 (resource_bytes data1) -> want k2 (resource_bytes data2) -> len data1 <= isize_max -> len data2 <= isize_max ->
  forall a1 a2 cr G, data1 = a1 ++ for_file true cs -> data2 = a2 ++ for_file false cs -> In k1 cr -> In k2 cr ->
  (forall cr', incl cr cr' -> puts Q cr' (G (len data1) (SFile k1 (8 + len data1)) (len data2) (SFile k2 (8 + len data2)))) ->
  puts Q cr (chain2 b cs (len a1) (SFile k1 (8 + len a1)) (len a2) (SFile k2 (8 + len a2)) G).
Proof.
  intros W1 W2 Hl1 Hl2. induction cs as [|[[|] c] cs IH]; intros a1 a2 cr G Ed1 Ed2 Hk1 Hk2 H; cbn [chain2].
  - unfold for_file in Ed1, Ed2. cbn [filter map List.concat] in Ed1, Ed2. rewrite app_nil_r in Ed1, Ed2. subst a1 a2. apply H. intros x. auto.
  - change (for_file true ((true, c) :: cs)) with (c ++ for_file true cs) in Ed1. change (for_file false ((true, c) :: cs)) with (for_file false cs) in Ed2.
    assert (Ld : len data1 = len a1 + (len c + len (for_file true cs))) by (rewrite Ed1, !len_app; lia).
    assert (X1 := len_nonneg a1). assert (X2 := len_nonneg c). assert (X3 := len_nonneg (for_file true cs)).
    apply puts_write_then with (cy := resource_bytes data1) (m := len (for_file true cs)); auto; try lia.
    + apply (fits_next a1 c (for_file true cs) []). rewrite app_nil_r. auto.
    + intros cr' Hi. rewrite <- (Z.add_assoc 8), <- len_app. apply IH; [rewrite Ed1, <- app_assoc; reflexivity|auto..|].
      intros cr'' Hi'. apply H. eapply incl_tran; eauto.
  - change (for_file false ((false, c) :: cs)) with (c ++ for_file false cs) in Ed2. change (for_file true ((false, c) :: cs)) with (for_file true cs) in Ed1.
    assert (Ld : len data2 = len a2 + (len c + len (for_file false cs))) by (rewrite Ed2, !len_app; lia).
    assert (X1 := len_nonneg a2). assert (X2 := len_nonneg c). assert (X3 := len_nonneg (for_file false cs)).
    apply puts_write_then with (cy := resource_bytes data2) (m := len (for_file false cs)); auto; try lia.
    + apply (fits_next a2 c (for_file false cs) []). rewrite app_nil_r. auto.
    + intros cr' Hi. rewrite <- (Z.add_assoc 8), <- len_app. apply IH; [auto|rewrite Ed2, <- app_assoc; reflexivity|auto..|].
      intros cr'' Hi'. apply H. eapply incl_tran; eauto.
Qed.
Lemma puts_finish_then b e base name data cr G : let k := key_of (path_join base name) in want k (resource_bytes data) -> In k cr ->
  (forall cr', incl cr cr' -> puts Q cr' G) -> puts Q cr (finish_then b e (len data) (SFile k (8 + len data)) G).
Proof.
  intros k W Hk H. unfold finish_then. eapply puts_bind; [apply puts_incl, puts_finish_p; eauto|].
  intros cr' [u|x] (_ & Hi); [auto|apply pu_bad; discriminate].
Qed.
Lemma puts_open_then b e base name schema data cr G H : let k := key_of (path_join base name) in want k (resource_bytes data) ->
  want (key_of (path_join base (schema_name name))) schema ->
  (forall cr', incl cr cr' -> In k cr' -> puts Q cr' (G (SFile k 8))) -> (forall cr' x, puts Q cr' (H x)) ->
  puts Q cr (open_then b e base name schema G H).
Proof.
  intros k Wk Ws Hg Hh. unfold open_then. eapply puts_bind; [apply puts_incl, puts_open_p with (data := data); eauto|].
  intros cr' [s|x] (Ha & Hi); auto. destruct Ha as (-> & Ha). auto.
Qed.
Lemma puts_vector b e base name schema cs f cr : let k := key_of (path_join base name) in want k (resource_bytes (List.concat cs)) ->
  want (key_of (path_join base (schema_name name))) schema -> len (List.concat cs) <= isize_max ->
  (forall cr r, puts Q cr (f r)) -> puts Q cr (vector_then b e base name schema cs f).
Proof.
  intros k Wk Ws Hl Hf. unfold vector_then. apply puts_open_then with (data := List.concat cs); auto. intros cr1 _ Hk. fold k in Hk |- *.
  apply (puts_chain b k (List.concat cs) cs Wk Hl []); auto. intros cr2 Hi. apply puts_finish_then; auto.
Qed.
Lemma puts_multi b e base name schema cs f cr : let k n := key_of (path_join base n) in
  want (k name) (resource_bytes (for_file false cs)) -> want (k (schema_name name)) schema ->
  want (k (index_name name)) (resource_bytes (for_file true cs)) -> want (k (schema_name (index_name name))) (index_schema schema) ->
  len (for_file false cs) <= isize_max -> len (for_file true cs) <= isize_max ->
  (forall cr r, puts Q cr (f r)) -> puts Q cr (multi_then b e base name schema cs f).
Proof.
  intros k Wk Ws Wi Wis L2 L1 Hf. unfold multi_then. apply puts_open_then with (data := for_file true cs); auto. intros cr1 _ Hi1.
  apply puts_open_then with (data := for_file false cs); auto; [|intros; apply pu_bad; discriminate]. intros cr2 I2 Hk2.
  apply (puts_chain2 b (k (index_name name)) (k name) (for_file true cs) (for_file false cs) cs Wi Wk L1 L2 [] []); auto.
  intros cr3 I3. apply puts_finish_then; auto.
  intros cr4 I4. apply puts_finish_then; auto.
Qed.
End Vectors.
End Puts.

Definition wanted (js : list job) (k : key) (cy : list Z) : Prop := exists j, In j js /\ In (k, cy) (job_files j).
Lemma puts_jobs all js : (forall j, In j js -> In j all /\ job_fits j) ->
  forall cr, puts (wanted all) (fun _ _ => True) cr (jobs_p js).
Proof.
  induction js as [|j js IH]; intros H cr; [constructor; exact I|]. cbn [jobs_p].
  destruct (H j (or_introl eq_refl)) as (Hj & Ty & L).
  assert (IH' : forall cr, puts (wanted all) (fun _ _ => True) cr (jobs_p js)) by (intros; apply IH; intros; apply H; simpl; auto).
  assert (Go : forall cr (r : result unit rs_error), puts (wanted all) (fun _ _ => True) cr (match r with Ok _ => jobs_p js | Er x => Done (Ret (Er x)) end)).
  { intros cr' [u|x]; auto. constructor. exact I. }
  assert (W : forall k c, In (k, c) (job_files j) -> wanted all k c) by (intros k c Hc; exists j; auto).
  clear IH H Hj.
  destruct j as [b e base name schema data|b e base aname aschema|b e base name schema cs|b e lim s base name schema els|b e lim size bits ts base name schema els];
    cbn [job_parts job_base] in *.
  - assert (W1 := W _ _ (or_introl eq_refl)). assert (W2 := W _ _ (or_intror (or_introl eq_refl))).
    eapply puts_bind with (R := fun _ _ => True); [|intros; apply Go]. cbn [job_p].
    apply (puts_try _ _ anyway); [|intros; constructor; exact I|auto].
    eapply puts_weaken; [apply puts_write_p; [exact W1|exact W2]|]. intros cr' [a|x] _; exact I.
  - assert (W1 := W _ _ (or_introl eq_refl)). assert (W2 := W _ _ (or_intror (or_introl eq_refl))).
    eapply puts_bind with (R := fun _ _ => True); [|intros; apply Go]. cbn [job_p].
    unfold create_archive_p. constructor. intros [|]; [constructor; exact I|].
    apply (puts_try _ _ anyway); [|intros; constructor; exact I|auto].
    eapply puts_weaken; [apply puts_write_p; [exact W1|exact W2]|]. intros cr' [a|x] _; exact I.
  - assert (W1 := W _ _ (or_introl eq_refl)). assert (W2 := W _ _ (or_intror (or_introl eq_refl))).
    eapply puts_bind with (R := fun _ _ => True); [|intros; apply Go]. cbn [job_p].
    apply (puts_try _ _ anyway); [|intros; constructor; exact I|auto].
    eapply puts_weaken; [apply puts_stream_p with (data := List.concat cs); [exact W1|exact W2|reflexivity|exact (L _ (or_introl eq_refl))]|].
    intros cr' [a|x] _; exact I.
  - assert (W1 := W _ _ (or_introl eq_refl)). assert (W2 := W _ _ (or_intror (or_introl eq_refl))).
    destruct (vector_job b e lim s base name schema els (fun r => match r with Ok _ => jobs_p js | Er x => Done (Ret (Er x)) end) Ty) as (cs & Ec & Pe).
    eapply puts_peq; [|exact Pe]. assert (Lc := L _ (or_introl eq_refl)). cbn [pt_data] in W1, Lc. rewrite <- Ec in W1, Lc.
    apply puts_vector; auto.
  - assert (W1 := W _ _ (or_introl eq_refl)). assert (W2 := W _ _ (or_intror (or_introl eq_refl))).
    assert (W3 := W _ _ (or_intror (or_intror (or_introl eq_refl)))). assert (W4 := W _ _ (or_intror (or_intror (or_intror (or_introl eq_refl))))).
    destruct (multi_job b e lim size bits ts base name schema els (fun r => match r with Ok _ => jobs_p js | Er x => Done (Ret (Er x)) end) Ty) as (cs & Ec1 & Ec2 & Pe).
    eapply puts_peq; [|exact Pe]. assert (L1 := L _ (or_introl eq_refl)). assert (L2 := L _ (or_intror (or_introl eq_refl))).
    cbn [pt_data] in W1, W3, L1, L2. rewrite <- Ec1 in W1, L1. rewrite <- Ec2 in W3, L2.
    apply puts_multi; auto.
Qed.

Section Bytes.
Variables (all : list job) (w0 : world).
Definition made (w : world) (k : key) : Prop := exists c, w_files w k = Some c /\ from_calls all k c.
Definition bytes_inv (w : world) : Prop := forall k, w_files w k = w_files w0 k \/ made w k.
Lemma from_empty k cy : wanted all k cy -> from_calls all k [].
Proof. intros (j & Hj & Hc). split; [exists j, cy; simpl; repeat split; auto; lia|]. simpl. intros i Hi. lia. Qed.
Lemma from_splice k cy q d c : wanted all k cy -> fits cy q d -> from_calls all k c -> from_calls all k (splice q d c).
Proof.
  intros (j & Hj & Hc) (F1 & F2 & F3) ((j1 & c1 & Hj1 & Hc1 & L1) & H). assert (L := splice_len q d c F1). split.
  - unfold len in *. destruct (Z.max_spec (Z.of_nat (length c)) (q + Z.of_nat (length d))) as [(_ & E)|(_ & E)]; rewrite E in L.
    + exists j, cy. repeat split; auto. lia.
    + exists j1, c1. repeat split; auto. lia.
  - intros i Hi. rewrite splice_nth by auto.
    assert (Old : nth i c 0 = 0 \/ exists j cy, In j all /\ In (k, cy) (job_files j) /\ (i < length cy)%nat /\ nth i c 0 = nth i cy 0).
    { destruct (Nat.lt_ge_cases i (length c)); [auto|]. left. apply nth_overflow. auto. }
    destruct (Nat.ltb_spec i (Z.to_nat q)); [exact Old|]. destruct (Nat.ltb_spec i (Z.to_nat q + length d)); [|exact Old].
    destruct (F3 (i - Z.to_nat q)%nat ltac:(lia)) as [E|E]; [auto|]. right. exists j, cy. repeat split; auto; [unfold len in *; lia|].
    rewrite E. f_equal. lia.
Qed.
Lemma step_bytes {A} (R : list key -> A -> Prop) cr w p w1 p1 : fstep w p w1 p1 -> puts (wanted all) R cr p ->
  bytes_inv w -> (forall k, In k cr -> made w k) ->
  exists cr1, puts (wanted all) R cr1 p1 /\ bytes_inv w1 /\ (forall k, made w k -> made w1 k) /\ forall k, In k cr1 -> made w1 k.
Proof.
  intros S H I Cr.
  assert (Stay : forall p', puts (wanted all) R cr p' -> exists cr1, puts (wanted all) R cr1 p' /\ bytes_inv w /\ (forall k, made w k -> made w k) /\ forall k, In k cr1 -> made w k)
    by (intros p' H'; exists cr; auto).
  assert (Same : forall p' w', puts (wanted all) R cr p' -> w_files w' = w_files w ->
     exists cr1, puts (wanted all) R cr1 p' /\ bytes_inv w' /\ (forall k, made w k -> made w' k) /\ forall k, In k cr1 -> made w' k).
  { intros p' w' H' E. exists cr. unfold bytes_inv, made. rewrite E. auto. }
  assert (Set1 : forall p' w' cr' k c, puts (wanted all) R cr' p' -> w_files w' = kupd k (Some c) (w_files w) -> from_calls all k c ->
     (forall x, In x cr' -> x = k \/ In x cr) ->
     exists cr1, puts (wanted all) R cr1 p' /\ bytes_inv w' /\ (forall k, made w k -> made w' k) /\ forall k, In k cr1 -> made w' k).
  { intros p' w' cr' k c H' E Fc Hc. exists cr'. split; auto.
    assert (Mk : made w' k) by (exists c; rewrite E, kupd_same; auto).
    assert (Mo : forall x, made w x -> made w' x).
    { intros x (y & Hy & Hf). destruct (key_eq_dec x k) as [->|N]; auto. exists y. rewrite E, kupd_other by auto. auto. }
    split; [|split; auto].
    - intros x. destruct (key_eq_dec x k) as [->|N]; auto. destruct (I x) as [Ix|Ix]; auto. left. rewrite E, kupd_other; auto.
    - intros x Hx. destruct (Hc x Hx) as [->|Hx']; auto. }
  assert (Dead : puts (wanted all) R cr (Done Crash)) by (apply pu_bad; discriminate).
  destruct H as [cr a H|cr o H|cr k f H|cr k f H|cr k cy f W H Hx|cr f H|cr k q d cy f Hk W Hf H Hx];
    inversion S as [? ? ? ? X| | | | | |]; subst; auto; try (inversion X; subst; auto; fail).
  - inversion X as [|? ? ? r ? E|? ? ? m Em Ep| | | |]; subst.
    2: { apply Same; auto. constructor. auto. }
    unfold create_dir_all, syscall in E. cbn [next_fault w_faults set_faults] in E.
    destruct (file_on_path k _); injection E as <- <-; apply Same; auto.
  - inversion X as [| | |? ? ? r ? E| | |]; subst. unfold file_create, syscall in E. cbn [next_fault w_faults set_faults] in E.
    destruct (is_dir k _); [injection E as <- <-; apply Same; auto|].
    destruct (is_dir (parent k) _); injection E as <- <-; [|apply Same; auto].
    apply (Set1 _ _ (k :: cr) k []); auto; [apply from_empty with (cy := cy); auto|]. intros x [<-|Hx']; auto.
  - destruct (Cr k Hk) as (c & Hc & Fc).
    inversion X as [| | | | |? ? ? ? ? i Hi|]; subst.
    + apply (Set1 _ _ cr k (splice q (firstn i d) c)); auto.
      * eapply pu_put with (cy := cy); auto; [apply fits_rest; [lia|auto]|].
        replace (q + Z.of_nat i + len (skipn i d)) with (q + len d); auto. unfold len. rewrite skipn_length. lia.
      * unfold file_write, file_content. simpl. rewrite Hc. auto.
      * apply from_splice with (cy := cy); auto. apply fits_first. auto.
    + apply Stay. unfold len in H. simpl in H. rewrite Z.add_0_r in H. auto.
Qed.
(** The disk stays a tree. *)
Lemma prefix_is x k : is_prefix_of x k = true -> exists n, (n <= length (snd k))%nat /\ x = (fst k, firstn n (snd k)).
Proof.
  unfold is_prefix_of. intros H. apply andb_prop in H as [H1 H2]. apply Bool.eqb_prop in H1. apply comps_eqb_eq in H2.
  exists (length (snd x)). destruct x as [r l]. cbn [fst snd] in *. assert (L := firstn_length (length l) (snd k)). rewrite <- H2 in L.
  split; [lia|]. congruence.
Qed.
Lemma prefix_parent x k : is_prefix_of x k = true -> is_prefix_of (parent x) k = true.
Proof.
  intros H. apply prefix_is in H. destruct H as (n & L & ->). unfold is_prefix_of, parent. cbn [fst snd]. rewrite Bool.eqb_reflx. cbn [andb].
  apply comps_eqb_eq. destruct n as [|n]; [reflexivity|]. rewrite removelast_firstn by lia. rewrite firstn_length. f_equal. lia.
Qed.
Lemma tree_dirs w k : a_tree w -> file_on_path k w = false -> a_tree (set_dirs (fun x => w_dirs w x || is_prefix_of x k) w).
Proof.
  intros T P x. destruct (T x) as (T1 & T2). unfold is_dir in *. cbn [w_dirs w_files set_dirs].
  destruct (is_prefix_of x k) eqn:X.
  - rewrite (prefix_parent _ _ X). rewrite !Bool.orb_true_r. split; auto. intros _.
    destruct (prefix_is _ _ X) as (n & L & ->). unfold file_on_path in P. destruct (w_files w _) eqn:F; auto.
    assert (existsb (fun n => match w_files w (fst k, firstn n (snd k)) with Some _ => true | None => false end) (seq 0 (S (length (snd k)))) = true); [|congruence].
    apply existsb_exists. exists n. split; [apply in_seq; lia|]. rewrite F. auto.
  - rewrite Bool.orb_false_r. split; auto. intros H. specialize (T2 H). destruct (w_dirs w (parent x)), (is_prefix_of (parent x) k); auto.
Qed.
Lemma tree_file w k c : a_tree w -> is_dir k w = false -> is_dir (parent k) w = true -> a_tree (set_files (kupd k (Some c) (w_files w)) w).
Proof.
  intros T D P x. change (is_dir x (set_files (kupd k (Some c) (w_files w)) w)) with (is_dir x w).
  change (is_dir (parent x) (set_files (kupd k (Some c) (w_files w)) w)) with (is_dir (parent x) w).
  cbn [w_files set_files]. destruct (key_eq_dec x k) as [->|N]; [|rewrite kupd_other by auto; apply T].
  split; auto. congruence.
Qed.
Lemma step_tree {A} (R : list key -> A -> Prop) cr w p w1 p1 : fstep w p w1 p1 -> puts (wanted all) R cr p ->
  (forall k, In k cr -> made w k) -> a_tree w -> a_tree w1.
Proof.
  intros S H Cr T. destruct S as [w p w1 p1 X| | | | | |]; auto.
  destruct X as [|w k f r w1 E|w k f n D P|w k f r w1 E| |w k q d f i Hi|]; auto.
  - unfold create_dir_all, syscall in E. cbn [next_fault w_faults set_faults] in E.
    destruct (file_on_path k _) eqn:P; injection E as <- <-; [exact T|]. apply (tree_dirs w k T P).
  - apply tree_dirs; auto.
  - unfold file_create, syscall in E. cbn [next_fault w_faults set_faults] in E.
    destruct (is_dir k _) eqn:D; [injection E as <- <-; exact T|].
    destruct (is_dir (parent k) _) eqn:P; injection E as <- <-; [|exact T]. apply (tree_file w k [] T D P).
  - inversion H as [| | | | | |? ? ? ? cy ? Hk]; subst. destruct (Cr k Hk) as (c & Hc & _). destruct (T k) as (T1 & T2).
    apply (tree_file w k _ T).
    + destruct (is_dir k w); auto. rewrite T1 in Hc; [discriminate|auto].
    + apply T2. right. congruence.
Qed.
Lemma pool_bytes (l : list (prog (result unit rs_error))) w w' l' : fpool_run w l w' l' -> bytes_inv w ->
  Forall (fun p => exists cr, puts (wanted all) (fun _ _ => True) cr p /\ forall k, In k cr -> made w k) l ->
  bytes_inv w' /\ (a_tree w -> a_tree w').
Proof.
  intros R. induction R as [|w l1 p l2 w1 p1 w2 l S R IH]; intros I F; auto.
  apply Forall_app in F. destruct F as (Fa & Fb). inversion Fb as [|? ? (cr & Hp & Hc) Fc]; subst.
  destruct (step_bytes _ _ _ _ _ _ S Hp I Hc) as (cr1 & H1 & H2 & H3 & H4). assert (Tr := step_tree _ _ _ _ _ _ S Hp Hc).
  assert (Up : forall l, Forall (fun p : prog (result unit rs_error) => exists cr, puts (wanted all) (fun _ _ => True) cr p /\ forall k, In k cr -> made w k) l ->
    Forall (fun p => exists cr, puts (wanted all) (fun _ _ => True) cr p /\ forall k, In k cr -> made w1 k) l).
  { intros l0 H0. eapply Forall_impl; [|exact H0]. intros a (cr0 & X & Y). exists cr0. split; auto. }
  destruct IH as (IH1 & IH2); auto. apply Forall_app. split; auto. constructor; auto. exists cr1. auto.
Qed.
End Bytes.

Lemma shared_run pss w w' l : (forall j, In j (List.concat pss) -> job_fits j) ->
  fpool_run w (map jobs_p pss) w' l -> bytes_inv (List.concat pss) w w' /\ (a_tree w -> a_tree w').
Proof.
  intros Hl R. apply (pool_bytes (List.concat pss) w _ _ _ _ R); [intros k; auto|].
  apply Forall_forall. intros p Hp. apply in_map_iff in Hp. destruct Hp as (js & <- & Hj). exists []. split; [|intros k []].
  apply puts_jobs. intros j Hi. assert (In j (List.concat pss)) by (apply in_concat; eauto). auto.
Qed.
Lemma shared_bytes pss w w' l : (forall j, In j (List.concat pss) -> job_fits j) ->
  fpool_run w (map jobs_p pss) w' l -> forall k, w_files w' k = w_files w k \/
  exists c, w_files w' k = Some c /\ from_calls (List.concat pss) k c.
Proof. intros Hl R. apply (shared_run pss w w' l Hl R). Qed.
