(** The calls of a process beside others. *)
From Verif Require Import Base BaseFacts Codec CodecSpec CodecFacts Storage PathFacts StorageSpec StorageFacts StorageMore Structs Writers MultiVecFacts.
From Verif Require Import Conc ConcFacts ConcSpec ConcVec ConcUse ConcFail ConcFailSpec ConcFailFacts.
Local Open Scope list_scope.
Local Open Scope Z_scope.

Section Calls.
Context {A : Type} (F B : key -> Prop) (P : own -> outcome A -> Prop).
Hypothesis PS : forall g h o, osame g h -> P g o -> P h o.
Notation fine := (safe F B P).
Notation stops := (gives_up P).

Lemma sf_assoc {X Y} kd g (p : prog X) (q : X -> prog Y) h :
  fine kd g (pbind p (fun x => pbind (q x) h)) -> fine kd g (pbind (pbind p q) h).
Proof. intros H. eapply safe_peq; [exact H|]. apply peq_assoc. Qed.
Lemma sf_same kd g h p : osame g h -> fine kd g p -> fine kd h p.
Proof. apply safe_same. exact PS. Qed.
Lemma sf_open kd g base name f : let k := key_of (path_join base name) in
  B (key_of base) -> F k -> parent k = key_of base ->
  (forall kd', fine kd' (kupd k (Some []) g) (f (Ok (SFile k 0)))) -> (forall x, stops (f (Er x))) ->
  fine kd g (pbind (create_output_stream_p base name) f).
Proof.
  intros k Hb Hf Hp H Hx. unfold create_output_stream_p. cbn [pbind].
  eapply safe_base; [exact Hb|unfold ptry; cbn [pbind]; reflexivity|unfold ptry; cbn [pbind]; apply peq_refl| |].
  - unfold ptry. cbn [pbind]. apply safe_create; auto. fold k. rewrite Hp. left. auto.
  - intros x. cbn [pbind]. apply Hx.
Qed.
Lemma sf_write kd g k c p d f : F k -> g k = Some c -> 0 <= p <= len c ->
  fine kd (kupd k (Some (splice p d c)) g) (f (Ok tt, SFile k (p + len d))) -> (forall x s, stops (f (Er x, s))) ->
  fine kd g (pbind (write_all_p (SFile k p) d) f).
Proof.
  intros Hf Hg Hp H Hx. destruct d as [|x d].
  - simpl. rewrite splice_nil in H by auto. unfold len in H. simpl in H. rewrite Z.add_0_r in H.
    eapply sf_same; [|exact H]. intros y. unfold kupd. destruct (key_eqb y k) eqn:E; auto. apply key_eqb_eq in E. subst. auto.
  - simpl. apply safe_put with (c := c); auto. discriminate.
Qed.
Lemma sf_append kd g k c d f : F k ->
  fine kd (kupd k (Some (c ++ d)) g) (f (Ok tt, SFile k (len c + len d))) -> (forall x s, stops (f (Er x, s))) ->
  fine kd (kupd k (Some c) g) (pbind (write_all_p (SFile k (len c)) d) f).
Proof.
  intros Hf H Hx. apply sf_write with (c := c); auto; [apply kupd_same|unfold len; lia|]. rewrite splice_end.
  eapply sf_same; [|exact H]. apply osame_sym, kupd_twice.
Qed.
Lemma sf_size b e kd g k c v f : F k ->
  fine kd (kupd k (Some (c ++ le_bytes 8 v)) g) (f (Ok tt, SFile k (len c + 8))) -> (forall x s, stops (f (Er x, s))) ->
  fine kd (kupd k (Some c) g) (pbind (write_size_p b e v (SFile k (len c))) f).
Proof.
  intros Hf H Hx. unfold write_size_p. rewrite write_size_bytes. cbn [pbind]. apply sf_append; auto.
Qed.
Lemma sf_schema kd g k schema f : F k ->
  fine kd (kupd k (Some schema) g) (f (Ok tt)) -> (forall x, stops (f (Er x))) ->
  fine kd (kupd k (Some []) g) (pbind (write_schema_p schema (SFile k 0)) f).
Proof.
  intros Hf H Hx. unfold write_schema_p, pstry. apply sf_assoc. apply (sf_append kd g k []); auto.
  intros x s. cbn [pbind]. auto.
Qed.
Lemma sf_to_stream b e kd g k data f : F k ->
  fine kd (kupd k (Some (resource_bytes data)) g) (f (Ok tt)) -> (forall x, stops (f (Er x))) ->
  fine kd (kupd k (Some []) g) (pbind (write_to_stream_p b e data (SFile k 0)) f).
Proof.
  intros Hf H Hx. unfold write_to_stream_p, pstry. apply sf_assoc. apply (sf_size b e kd g k []); auto; try (intros; cbn [pbind]; solve [auto]).
  apply sf_assoc. apply (sf_append kd g k (le_bytes 8 (len data))); auto; try (intros; cbn [pbind]; solve [auto]).
  apply sf_assoc. replace (len (le_bytes 8 (len data)) + len data) with (len (le_bytes 8 (len data) ++ data)) by apply len_app.
  apply sf_append; [exact Hf| |intros; cbn [pbind]; auto]. cbn [pbind]. rewrite <- app_assoc. exact H.
Qed.

Section Call.
Variables (base name : string).
Let k := key_of (path_join base name).
Let ks := key_of (path_join base (schema_name name)).
Hypothesis Hb : B (key_of base).
Hypothesis Hk : F k.
Hypothesis Hs : F ks.
Hypothesis Pk : parent k = key_of base.
Hypothesis Ps : parent ks = key_of base.
Lemma sf_write_call b e kd g schema data f :
  (forall kd', fine kd' (kupd ks (Some schema) (kupd k (Some (resource_bytes data)) g)) (f (Ok tt))) -> (forall x, stops (f (Er x))) ->
  fine kd g (pbind (write_p b e base name schema data) f).
Proof.
  intros H Hx. unfold write_p, ptry. apply sf_assoc. apply sf_open; auto; try (intros; cbn [pbind]; solve [auto]). intros kd1. apply sf_assoc.
  apply sf_to_stream; auto; try (intros; cbn [pbind]; solve [auto]). apply sf_assoc. apply sf_open; auto; try (intros; cbn [pbind]; solve [auto]).
  intros kd2. apply sf_schema; auto.
Qed.
Lemma sf_open_p b e kd g schema f :
  (forall kd', fine kd' (kupd k (Some (le_bytes 8 0)) (kupd ks (Some schema) g)) (f (Ok (SFile k (len (le_bytes 8 0)))))) ->
  (forall x, stops (f (Er x))) ->
  fine kd g (pbind (open_p b e base name schema) f).
Proof.
  intros H Hx. unfold open_p, ptry, pstry.
  apply sf_assoc. apply sf_open; auto; try (intros; cbn [pbind]; solve [auto]). intros kd1. apply sf_assoc.
  apply sf_schema; auto; try (intros; cbn [pbind]; solve [auto]). apply sf_assoc. apply sf_open; auto; try (intros; cbn [pbind]; solve [auto]). intros kd2. apply sf_assoc.
  apply (sf_size b e kd2 _ k []); auto; try (intros; cbn [pbind]; solve [auto]).
Qed.
End Call.
Section File.
Variable k : key.
Hypothesis Hk : F k.
Lemma sf_finish_p b e kd g data f :
  fine kd (kupd k (Some (resource_bytes data)) g) (f (Ok tt)) -> (forall x, stops (f (Er x))) ->
  fine kd (kupd k (Some (le_bytes 8 0 ++ data)) g) (pbind (finish_p b e (len data) (SFile k (len (le_bytes 8 0 ++ data)))) f).
Proof.
  intros H Hx. unfold finish_p, pstry. apply sf_assoc. apply sf_append; auto; try (intros; cbn [pbind]; solve [auto]).
  apply sf_assoc. cbn [pbind seek_start_p]. apply safe_seek; try (intros; cbn [pbind]; solve [auto]). cbn [pbind].
  unfold write_size_p. rewrite write_size_bytes. cbn [pbind]. apply sf_assoc. 
  apply sf_write with (c := (le_bytes 8 0 ++ data) ++ zeros PADDING_SIZE); auto; [apply kupd_same|unfold len; lia| |intros; cbn [pbind]; auto].
  cbn [pbind]. rewrite splice_start, le_bytes_length, <- app_assoc. change (length (le_bytes 8 0)) with 8%nat.
  change (skipn 8 (le_bytes 8 0 ++ data ++ zeros PADDING_SIZE)) with (data ++ zeros PADDING_SIZE).
  eapply sf_same; [apply osame_sym, kupd_twice|]. apply H.
Qed.
Lemma sf_chunks b kd g cs : forall c n f,
  0 <= n -> n + len (List.concat cs) <= isize_max ->
  fine kd (kupd k (Some (c ++ List.concat cs)) g) (f (Ok (n + len (List.concat cs), SFile k (len c + len (List.concat cs))))) ->
  (forall x, stops (f (Er x))) ->
  fine kd (kupd k (Some c) g) (pbind (chunks_p b cs n (SFile k (len c))) f).
Proof.
  induction cs as [|x cs IH]; intros c n f Hn Hl H Hx.
  - simpl in *. rewrite app_nil_r in H. unfold len in H at 2 3. simpl in H. rewrite !Z.add_0_r in H. exact H.
  - simpl in H, Hl. rewrite len_app in H, Hl. cbn [chunks_p]. unfold pstry. apply sf_assoc. apply sf_append; auto; try (intros; cbn [pbind]; solve [auto]).
    cbn [pbind].
    assert (X : uadd b n (len x) = Ret (n + len x)).
    { unfold uadd, wrap_or_panic. destruct (_ && _) eqn:C; auto. exfalso. unfold usize_limit, isize_max, len in *. lia. }
    rewrite X. cbn [pbind]. rewrite <- len_app. apply IH; auto.
    + unfold len in *. lia.
    + lia.
    + rewrite <- app_assoc, len_app. rewrite <- !Z.add_assoc. exact H.
Qed.
End File.
Lemma sf_stream_call base name b e kd g schema cs f :
  let k := key_of (path_join base name) in let ks := key_of (path_join base (schema_name name)) in
  B (key_of base) -> F k -> F ks -> parent k = key_of base -> parent ks = key_of base -> len (List.concat cs) <= isize_max ->
  (forall kd', fine kd' (kupd k (Some (resource_bytes (List.concat cs))) (kupd ks (Some schema) g)) (f (Ok tt))) ->
  (forall x, stops (f (Er x))) ->
  fine kd g (pbind (stream_p b e base name schema cs) f).
Proof.
  intros k ks Hb Hk Hs Pk Ps Hl H Hx. unfold stream_p, ptry. apply sf_assoc. apply sf_open_p; auto; try (intros; cbn [pbind]; solve [auto]).
  intros kd1. apply sf_assoc.
  apply (sf_chunks k Hk b kd1 _ cs (le_bytes 8 0) 0); [lia|lia| |intros; cbn [pbind]; auto]. cbn [fst snd]. rewrite <- len_app. apply sf_finish_p; auto.
Qed.
End Calls.

(** Vectors. *)
Section Vectors.
Variables (F B : key -> Prop) (P : own -> outcome (result unit rs_error) -> Prop).
Hypothesis PS : forall g h o, osame g h -> P g o -> P h o.
Hypothesis PP : forall g, P g Panic.
Notation fine := (safe F B P).
Notation stops := (gives_up P).
Lemma panic_stops : stops (Done Panic).
Proof. exists Panic. auto. Qed.
Lemma sf_chain b k kd g cs : F k -> forall c n G, 0 <= n -> n + len (List.concat cs) <= isize_max ->
  fine kd (kupd k (Some (c ++ List.concat cs)) g) (G (n + len (List.concat cs)) (SFile k (len (c ++ List.concat cs)))) ->
  fine kd (kupd k (Some c) g) (chain b cs n (SFile k (len c)) G).
Proof.
  intros Hk. induction cs as [|x cs IH]; intros c n G Hn Hl H; cbn [chain List.concat] in *.
  - rewrite app_nil_r, len_nil, Z.add_0_r in H. exact H.
  - rewrite len_app in Hl. assert (X := len_nonneg x). assert (X1 := len_nonneg (List.concat cs)). unfold write_then. apply sf_append; auto; [|intros; apply panic_stops]. cbn [pbind].
    rewrite (size_adds b n x (len (List.concat cs))) by lia. cbn [pbind]. rewrite <- len_app. apply IH; [lia|lia|].
    rewrite <- app_assoc. rewrite <- Z.add_assoc. rewrite <- len_app. exact H.
Qed.
Lemma sf_chain2 b k1 k2 kd g cs : F k1 -> F k2 -> k1 <> k2 -> forall c1 n1 c2 n2 G, 0 <= n1 -> 0 <= n2 ->
  n1 + len (for_file true cs) <= isize_max -> n2 + len (for_file false cs) <= isize_max ->
  fine kd (kupd k1 (Some (c1 ++ for_file true cs)) (kupd k2 (Some (c2 ++ for_file false cs)) g))
    (G (n1 + len (for_file true cs)) (SFile k1 (len (c1 ++ for_file true cs))) (n2 + len (for_file false cs)) (SFile k2 (len (c2 ++ for_file false cs)))) ->
  fine kd (kupd k1 (Some c1) (kupd k2 (Some c2) g)) (chain2 b cs n1 (SFile k1 (len c1)) n2 (SFile k2 (len c2)) G).
Proof.
  intros H1 H2 N. induction cs as [|[[|] x] cs IH]; intros c1 n1 c2 n2 G Hn1 Hn2 L1 L2 H; cbn [chain2].
  - unfold for_file in H. cbn [filter map List.concat] in H. rewrite !app_nil_r, len_nil, !Z.add_0_r in H. exact H.
  - change (for_file true ((true, x) :: cs)) with (x ++ for_file true cs) in *. change (for_file false ((true, x) :: cs)) with (for_file false cs) in *.
    rewrite len_app in L1. assert (X := len_nonneg x). assert (X1 := len_nonneg (for_file true cs)). unfold write_then. apply sf_append; auto; [|intros; apply panic_stops]. cbn [pbind].
    rewrite (size_adds b n1 x (len (for_file true cs))) by lia. cbn [pbind]. rewrite <- len_app. apply IH; [lia|lia|lia|lia|].
    rewrite <- app_assoc. rewrite <- (Z.add_assoc n1). rewrite <- len_app. exact H.
  - change (for_file false ((false, x) :: cs)) with (x ++ for_file false cs) in *. change (for_file true ((false, x) :: cs)) with (for_file true cs) in *.
    rewrite len_app in L2. assert (X := len_nonneg x). assert (X1 := len_nonneg (for_file false cs)). unfold write_then.
    eapply sf_same; [exact PS|apply osame_sym, kupd_swap; exact N|]. apply sf_append; auto; [|intros; apply panic_stops]. cbn [pbind].
    rewrite (size_adds b n2 x (len (for_file false cs))) by lia. cbn [pbind]. rewrite <- len_app.
    eapply sf_same; [exact PS|apply kupd_swap; exact N|]. apply IH; [lia|lia|lia|lia|].
    rewrite <- app_assoc. rewrite <- (Z.add_assoc n2). rewrite <- len_app. exact H.
Qed.
Section Call.
Variables (base name : string).
Let k := key_of (path_join base name).
Let ks := key_of (path_join base (schema_name name)).
Let ki := key_of (path_join base (index_name name)).
Let kis := key_of (path_join base (schema_name (index_name name))).
Hypothesis Hb : B (key_of base).
Hypothesis Hk : F k.
Hypothesis Hs : F ks.
Hypothesis Pk : parent k = key_of base.
Hypothesis Ps : parent ks = key_of base.
Lemma sf_vector b e kd g schema cs f : len (List.concat cs) <= isize_max ->
  (forall kd', fine kd' (kupd k (Some (resource_bytes (List.concat cs))) (kupd ks (Some schema) g)) (f (Ok tt))) ->
  (forall x, stops (f (Er x))) ->
  fine kd g (vector_then b e base name schema cs f).
Proof.
  intros Hl H Hx. unfold vector_then, open_then. apply sf_open_p; auto. intros kd1.
  apply (sf_chain b k kd1 _ cs Hk (le_bytes 8 0) 0); [lia|lia|]. cbn [Z.add]. unfold finish_then.
  apply sf_finish_p; auto. intros x. apply panic_stops.
Qed.
Hypothesis Hi : F ki.
Hypothesis His : F kis.
Hypothesis Pi : parent ki = key_of base.
Hypothesis Pis : parent kis = key_of base.
Hypothesis Nd : NoDup [k; ks; ki; kis].
Lemma sf_multi b e kd g schema cs f : len (for_file true cs) <= isize_max -> len (for_file false cs) <= isize_max ->
  (forall kd', fine kd' (kupd k (Some (resource_bytes (for_file false cs))) (kupd ks (Some schema)
     (kupd ki (Some (resource_bytes (for_file true cs))) (kupd kis (Some (index_schema schema)) g)))) (f (Ok tt))) ->
  (forall x, stops (f (Er x))) ->
  fine kd g (multi_then b e base name schema cs f).
Proof.
  intros L1 L2 H Hx. assert (Nk : k <> ki /\ ks <> ki).
  { inversion Nd as [|? ? N1 D1]; subst. inversion D1 as [|? ? N2 D2]; subst. simpl in N1, N2. intuition congruence. }
  destruct Nk as (Nk & Nks). unfold multi_then, open_then. apply sf_open_p; auto. intros kd1.
  apply sf_open_p; auto; [|intros x; apply panic_stops]. intros kd2. fold k ks ki kis.
  assert (Sw : forall u v w x, osame (kupd ki u (kupd k v (kupd ks w x))) (kupd k v (kupd ks w (kupd ki u x)))).
  { intros u v w x. eapply osame_trans; [apply kupd_swap; congruence|]. apply kupd_same_own. apply kupd_swap. congruence. }
  eapply sf_same; [exact PS|apply Sw|].
  apply (sf_chain2 b ki k kd2 _ cs Hi Hk ltac:(congruence) (le_bytes 8 0) 0 (le_bytes 8 0) 0); [lia|lia|lia|lia|]. cbn [Z.add].
  unfold finish_then. apply sf_finish_p; auto; [|intros x; apply panic_stops]. eapply sf_same; [exact PS|apply kupd_swap; exact Nk|].
  apply sf_finish_p; auto; [|intros x; apply panic_stops].
  eapply sf_same; [exact PS| |apply H]. intros x. apply (kupd_same_own k). apply kupd_swap. congruence.
Qed.
End Call.
End Vectors.

(** A process that was successful has done all its calls. *)
Definition complete_of (js : list job) (g : own) (o : outcome (result unit rs_error)) : Prop :=
  o = Ret (Ok tt) -> osame g (final js).
Lemma complete_same js g h o : osame g h -> complete_of js g o -> complete_of js h o.
Proof. intros S H E k. rewrite <- S. apply H. auto. Qed.
Lemma complete_error js g x : complete_of js g (Ret (Er x)).
Proof. intros E. discriminate. Qed.

Section Jobs.
Variables (F B : key -> Prop).
Lemma jobs_safe rest : forall d kd g, osame g (final d) -> (forall j, In j rest -> job_in F B j) ->
  safe F B (complete_of (d ++ rest)) kd g (jobs_p rest).
Proof.
  induction rest as [|j rest IH]; intros d kd g S H.
  - apply safe_done. intros _. rewrite app_nil_r. auto.
  - destruct (H j (or_introl eq_refl)) as (Hf & Hb & V & Ty & L).
    assert (E : d ++ j :: rest = (d ++ [j]) ++ rest) by (rewrite <- app_assoc; reflexivity).
    assert (IH' : forall kd h, osame h (put_all (job_files j) g) -> safe F B (complete_of (d ++ j :: rest)) kd h (jobs_p rest)).
    { intros kd' g' S'. rewrite E. apply IH; [eapply final_next; eauto|]. intros x Hx. apply H. right. auto. }
    assert (St : forall x, gives_up (complete_of (d ++ j :: rest)) (Done (Ret (Er x)))).
    { intros x. eexists. split; [reflexivity|]. intros g'. apply complete_error. }
    assert (Pa : forall g, complete_of (d ++ j :: rest) g Panic) by (intros g' X; discriminate).
    clear IH E. cbn [jobs_p]. unfold ptry.
    destruct j as [b e base name schema data|b e base aname aschema|b e base name schema cs|b e lim s base name schema els|b e lim size bits ts base name schema els];
      cbn [job_parts job_base] in *.
    + destruct (valid_parent base name (V _ (or_introl eq_refl))) as (Pk & Ps).
      assert (Hk := Hf _ _ (or_introl eq_refl)). assert (Hs := Hf _ _ (or_intror (or_introl eq_refl))).
      cbn [job_p]. unfold ptry. apply sf_assoc. apply (sf_write_call F B _ (complete_same _) base name Hb Hk Hs Pk Ps); try (intros; cbn [pbind]; solve [auto]).
      intros kd'. cbn [pbind]. apply IH'. intros x. reflexivity.
    + destruct (valid_parent base _ (V _ (or_introl eq_refl))) as (Pk & Ps). cbn [pt_name] in Pk, Ps.
      assert (Hk := Hf _ _ (or_introl eq_refl)). assert (Hs := Hf _ _ (or_intror (or_introl eq_refl))).
      cbn [job_p]. unfold create_archive_p. cbn [pbind]. apply safe_look; [exact Hk| |].
      * cbn [pbind]. apply safe_done. apply complete_error.
      * unfold ptry. apply sf_assoc. apply (sf_write_call F B _ (complete_same _) base (signature_name aname) Hb Hk Hs Pk Ps); try (intros; cbn [pbind]; solve [auto]).
        intros kd'. cbn [pbind]. apply IH'. intros x. reflexivity.
    + destruct (valid_parent base name (V _ (or_introl eq_refl))) as (Pk & Ps).
      assert (Hk := Hf _ _ (or_introl eq_refl)). assert (Hs := Hf _ _ (or_intror (or_introl eq_refl))).
      cbn [job_p]. unfold ptry. apply sf_assoc. apply (sf_stream_call F B _ (complete_same _) base name); auto; try (intros; cbn [pbind]; solve [auto]).
      { exact (L _ (or_introl eq_refl)). }
      intros kd'. cbn [pbind]. apply IH'. apply schema_first.
    + destruct (valid_parent base name (V _ (or_introl eq_refl))) as (Pk & Ps).
      assert (Hk := Hf _ _ (or_introl eq_refl)). assert (Hs := Hf _ _ (or_intror (or_introl eq_refl))).
      destruct (vector_job b e lim s base name schema els (fun r => match r with Ok _ => jobs_p rest | Er x => Done (Ret (Er x)) end) Ty) as (cs & Ec & Pe).
      eapply safe_peq; [|exact Pe]. assert (Lc := L _ (or_introl eq_refl)). cbn [pt_data] in Lc. rewrite <- Ec in Lc.
      apply (sf_vector F B _ (complete_same _) Pa base name Hb Hk Hs Pk Ps); auto.
      intros kd'. apply IH'. eapply osame_trans; [apply schema_first|]. rewrite Ec. intros x. reflexivity.
    + assert (Vi := V _ (or_introl eq_refl)). assert (Vd := V _ (or_intror (or_introl eq_refl))). cbn [pt_name] in Vi, Vd.
      destruct (valid_parent base name Vd) as (Pk & Ps). destruct (valid_parent base _ Vi) as (Pi & Pis).
      assert (Hi := Hf _ _ (or_introl eq_refl)). assert (His := Hf _ _ (or_intror (or_introl eq_refl))).
      assert (Hk := Hf _ _ (or_intror (or_intror (or_introl eq_refl)))). assert (Hs := Hf _ _ (or_intror (or_intror (or_intror (or_introl eq_refl))))).
      destruct (multi_job b e lim size bits ts base name schema els (fun r => match r with Ok _ => jobs_p rest | Er x => Done (Ret (Er x)) end) Ty) as (cs & Ec1 & Ec2 & Pe).
      eapply safe_peq; [|exact Pe]. assert (L1 := L _ (or_introl eq_refl)). assert (L2 := L _ (or_intror (or_introl eq_refl))).
      cbn [pt_data] in L1, L2. rewrite <- Ec1 in L1. rewrite <- Ec2 in L2.
      apply (sf_multi F B _ (complete_same _) Pa base name Hb Hk Hs Pk Ps Hi His Pi Pis (multi_keys base name Vd)); auto.
      intros kd'. apply IH'. eapply osame_trans; [apply (multi_files base name); exact Vd|]. rewrite Ec1, Ec2. intros x. reflexivity.
Qed.
End Jobs.

Lemma jobs_in js w : (forall j, In j js -> job_ok w j) -> forall j, In j js -> job_in (jobs_file js) (jobs_base js) j.
Proof.
  intros H j Hj. destruct (H j Hj) as (L & V). unfold job_in, jobs_file, jobs_base.
  split; [intros k c Hk; exists j, c; auto|]. split; [exists j; auto|]. split; auto. intros p Hp. apply V. auto.
Qed.
Lemma apart_above js : jobs_apart js -> forall k b, jobs_file js k -> jobs_base js b -> is_prefix_of k b = false.
Proof. intros H k b (j & c & Hj & Hc) (j' & Hj' & ->). exact (H j j' k c Hj Hj' Hc). Qed.
Lemma file_not_dir js w : (forall j, In j js -> job_ok w j) -> forall k, jobs_file js k -> is_dir k w = false.
Proof.
  intros H k (j & c & Hj & Hc). destruct (H j Hj) as (_ & Hp). destruct (job_files_part _ _ _ Hc) as (p & Ip & X).
  destruct (Hp p Ip) as (_ & ((U1 & _) & (U2 & _))). destruct X as [(-> & _)|(-> & _)]; auto.
Qed.

Lemma beside_end js w w' o : process_ok w js -> beside (spares js) w (jobs_p js) w' (Done o) ->
  as_alone js w o w' /\ (o = Ret (Ok tt) -> forall k c, final js k = Some c -> w_files w' k = Some c).
Proof.
  intros (Hj & Ha & Hn) R.
  assert (G : good (jobs_file js) (jobs_base js) [] w).
  { split; [apply file_not_dir; auto|]. split; [intros b n Hb; apply Hn; auto|]. intros b []. }
  assert (M : sim (jobs_file js) (jobs_base js) (complete_of js) none w (jobs_p js) w (jobs_p js)).
  { apply sim_at with (kd := []); auto; [|intros k c; discriminate].
    apply (jobs_safe _ _ js []); [intros k; reflexivity|]. apply jobs_in with (w := w). auto. }
  assert (PC : forall g, complete_of js g Crash) by (intros g E; discriminate).
  destruct (beside_outcome _ _ _ (complete_same js) (apart_above js Ha) PC _ _ _ _ R _ _ _ o M eq_refl)
    as (fs & v' & E & W & g & Pg & Wg).
  split.
  - exists fs, v'. rewrite <- interp_jobs. auto.
  - intros -> k c Hc. apply Wg. rewrite (Pg eq_refl). auto.
Qed.

Lemma beside_app {A} S w (p : prog A) w1 p1 w2 p2 : beside S w p w1 p1 -> beside S w1 p1 w2 p2 -> beside S w p w2 p2.
Proof. intros R. revert w2 p2. induction R; intros; auto; [eapply beside_mine|eapply beside_theirs]; eauto. Qed.
Lemma beside_unharmed js w w' p' : process_ok w js -> beside (spares js) w (jobs_p js) w' p' -> unharmed js w p' w'.
Proof.
  intros H R. split; [|split].
  - intros o ->. apply (beside_end js w w' o H R).
  - intros N. apply (beside_end js w w' Crash H). eapply beside_app; [exact R|].
    eapply beside_mine; [apply fs_killed; exact N|constructor].
  - intros ->. destruct (beside_end js w w' _ H R) as (_ & C). specialize (C eq_refl). split; [exact C|].
    intros j p b e Hj Hp Hk Hs Do (U & _ & _ & Ns).
    destruct (fresh_read_framed b e (job_base j) (pt_name p) w' (pt_data p) (pt_schema p)) as (sl & X & E & _); auto.
    exists sl. auto.
Qed.

(** * Others that spare the files: processes with other files *)
Section Within.
Context {A : Type} (F B : key -> Prop).
Inductive within : prog A -> Prop :=
| in_done o : within (Done o)
| in_stat k f : (forall x, within (f x)) -> within (Stat k f)
| in_mkdirs b f : B b -> (forall x, within (f x)) -> within (MkDirs b f)
| in_create k f : F k -> within (f (Ok (SFile k 0))) -> (forall x, within (f (Er x))) -> within (CreateFile k f)
| in_seek f : (forall x, within (f x)) -> within (Seek f)
| in_put k q d f : F k -> within (f (Ok tt, SFile k (q + len d))) -> (forall x s, within (f (Er x, s))) -> within (PutAt k q d f).
Lemma within_peq p q : within p -> peq p q -> within q.
Proof.
  intros H. revert q.
  induction H as [o|k f H IH|b f Hb H IH|k f Hk H IH Hx IHx|f H IH|k q d f Hk H IH Hx IHx]; intros q' Q; inversion Q; subst; constructor; eauto.
Qed.
Lemma gives_up_within P p : @gives_up A P p -> within p.
Proof. intros (o & -> & _). constructor. Qed.
Lemma safe_within P kd g p : safe F B P kd g p -> within p.
Proof.
  intros H. induction H as [| |kd g b f h Hb Ef Pe S IH Gu|kd g b h Hb S IH Gu|kd g k f Hk Hp S IH Gu|kd g f S IH Gu|].
  - constructor.
  - constructor. intros [|]; auto.
  - constructor. intros [|]; auto. rewrite Ef. constructor; auto. intros [[]|x].
    + eapply within_peq; [exact IH|]. apply peq_sym. auto.
    + eapply gives_up_within; eauto.
  - constructor; auto. intros [[]|x]; auto. eapply gives_up_within; eauto.
  - constructor; auto. intros x. eapply gives_up_within; eauto.
  - constructor; auto. intros [[]|x]; auto. eapply gives_up_within; eauto.
  - constructor; auto. intros x s. eapply gives_up_within; eauto.
Qed.
Definition only (w w' : world) : Prop :=
  (forall k, ~ F k -> w_files w' k = w_files w k) /\
  (forall k, is_dir k w = true -> is_dir k w' = true) /\
  (forall k, (forall b, B b -> is_prefix_of k b = false) -> is_dir k w' = is_dir k w).
Lemma only_refl w : only w w.
Proof. split; auto. Qed.
Lemma only_file k c w w' : F k -> w_files w' = kupd k c (w_files w) -> w_dirs w' = w_dirs w -> only w w'.
Proof.
  intros Hk E D. split; [|split].
  - intros x Hx. rewrite E. apply kupd_other. intros ->. auto.
  - intros x. unfold is_dir. rewrite D. auto.
  - intros x _. unfold is_dir. rewrite D. auto.
Qed.
Lemma within_step w p w' p' : fstep w p w' p' -> within p -> within p' /\ only w w'.
Proof.
  intros S H.
  destruct H as [o|k f H|b f Hb H|k f Hk H Hx|f H|k q d f Hk H Hx];
    inversion S as [? ? ? ? X| | | | | |]; subst; try (split; [solve [auto|constructor]|apply only_refl]);
    try (inversion X; subst; split; [solve [auto|constructor]|apply only_refl]).
  - inversion X.
  - inversion X as [|? ? ? r ? E|? ? ? m Em Ep| | | |]; subst.
    2: { split; [constructor; auto|]. split; auto. split.
      - intros k. unfold is_dir. simpl. intros D. apply orb_true_iff in D. destruct D as [->| ->]; simpl; auto. apply orb_true_r.
      - intros k Hk. unfold is_dir. simpl. destruct (is_prefix_of k (fst b, firstn m (snd b))) eqn:E; [|rewrite orb_false_r; auto].
        apply prefix_shorter in E. rewrite (Hk b Hb) in E. discriminate. }
    split; auto. unfold create_dir_all, syscall in E. cbn [next_fault w_faults set_faults] in E.
    destruct (file_on_path b (set_faults [] w)); injection E as <- <-; [split; auto|]. split; auto. split.
    + intros k. unfold is_dir. simpl. intros D. apply orb_true_iff in D. destruct D as [->| ->]; simpl; auto. apply orb_true_r.
    + intros k Hk. unfold is_dir. simpl. rewrite (Hk b Hb), orb_false_r. auto.
  - inversion X as [| | |? ? ? r ? E| | |]; subst. unfold file_create, syscall in E. cbn [next_fault w_faults set_faults] in E.
    destruct (is_dir k _); [injection E as <- <-; split; [auto|split; auto]|].
    destruct (is_dir (parent k) _); injection E as <- <-; (split; [auto|]); [apply (only_file k (Some [])); auto|split; auto].
  - inversion X as [| | | | |? ? ? ? ? i Hi|]; subst.
    + split; [|apply (only_file k (Some (splice q (firstn i d) (file_content k w)))); auto]. constructor; auto.
      replace (q + Z.of_nat i + len (skipn i d)) with (q + len d); auto. unfold len. rewrite skipn_length. lia.
    + split; [|apply only_refl]. unfold len in H. simpl in H. rewrite Z.add_0_r in H. auto.
Qed.
End Within.

Section Pools.
Variables (pss : list (list job)) (w0 : world).
Hypothesis Hok : processes_ok w0 pss.
Hypothesis Hsep : separate pss.
Definition in_lines (l : list (prog (result unit rs_error))) : Prop :=
  Forall2 (fun js p => within (jobs_file js) (jobs_base js) p) pss l.
Lemma nth_concat {X} (l : list (list X)) i js : nth_error l i = Some js -> forall x, In x js -> In x (List.concat l).
Proof. intros H x Hx. apply in_concat. exists js. split; auto. eapply nth_error_In; eauto. Qed.
Lemma others_spare i m js js' w w' : nth_error pss i = Some js -> nth_error pss m = Some js' -> i <> m ->
  only (jobs_file js') (jobs_base js') w w' -> spares js w w'.
Proof.
  intros Hi Hm N (O1 & O2 & O3). destruct Hok as (_ & Ap).
  assert (U : forall a b k d, nth_error pss a = Some d -> jobs_file d k -> forall d', nth_error pss b = Some d' -> forall x, jobs_base d' x -> is_prefix_of k x = false).
  { intros a b k d Ha (j & c & Hj & Hc) d' Hb x (j' & Hj' & ->).
    exact (Ap j j' k c (nth_concat _ _ _ Ha j Hj) (nth_concat _ _ _ Hb j' Hj') Hc). }
  split.
  - intros k Hk. split; [apply O1; exact (Hsep i m js js' k Hi Hm N Hk)|]. apply O3. intros b Hb. eapply (U i m); eauto.
  - intros b Hb. split; auto. intros n E. rewrite O1; auto. intros Hf.
    assert (KB : forall k x, jobs_file js' k -> jobs_base js x -> is_prefix_of k x = false) by (intros; eapply (U m i); eauto).
    exact (above_other (jobs_file js') (jobs_base js) (fun _ => true) KB b n _ Hf Hb eq_refl).
Qed.
Lemma Forall2_nth' {X Y} (R : X -> Y -> Prop) l l' i y : Forall2 R l l' -> nth_error l' i = Some y ->
  exists x, nth_error l i = Some x /\ R x y.
Proof. intros H. revert i. induction H; intros [|i] E; simpl in *; try discriminate; [injection E as <-|]; eauto. Qed.
Lemma Forall2_mid {X Y} (R : X -> Y -> Prop) l a y b y' : Forall2 R l (a ++ y :: b) -> (forall x, R x y -> R x y') -> Forall2 R l (a ++ y' :: b).
Proof.
  revert l. induction a as [|z a IH]; intros l H S; inversion H; subst; simpl; constructor; auto.
Qed.
Lemma nth_mid {X} (a : list X) x b : nth_error (a ++ x :: b) (length a) = Some x.
Proof. induction a; simpl; auto. Qed.
Lemma nth_mid_other {X} (a : list X) x y b i : i <> length a -> nth_error (a ++ x :: b) i = nth_error (a ++ y :: b) i.
Proof. revert i. induction a as [|z a IH]; intros [|i] H; simpl in *; auto; try congruence. Qed.
Lemma pool_beside w l w' l' : fpool_run w l w' l' -> in_lines l ->
  (forall i js p, nth_error pss i = Some js -> nth_error l i = Some p ->
    exists p', nth_error l' i = Some p' /\ beside (spares js) w p w' p') /\
  forall k, (forall js, In js pss -> ~ jobs_file js k) -> w_files w' k = w_files w k.
Proof.
  intros R. induction R as [w l|w l1 p l2 w1 p1 w2 l S R IH]; intros L.
  - split; auto. intros i js p Hi Hp. exists p. split; auto. constructor.
  - destruct (Forall2_nth' _ _ _ _ _ L (nth_mid l1 p l2)) as (js' & Hm & Wi).
    destruct (within_step _ _ _ _ _ _ S Wi) as (_ & On).
    assert (L' : in_lines (l1 ++ p1 :: l2)).
    { eapply Forall2_mid; [exact L|]. intros js W. apply (within_step _ _ _ _ _ _ S W). }
    destruct (IH L') as (I1 & I2). split.
    + intros i js q Hi Hq. destruct (Nat.eq_dec i (length l1)) as [->|N].
      * rewrite nth_mid in Hq. injection Hq as <-. destruct (I1 _ _ _ Hi (nth_mid l1 p1 l2)) as (p' & E & Bs).
        exists p'. split; auto. eapply beside_mine; eauto.
      * rewrite (nth_mid_other _ _ p1) in Hq by auto. destruct (I1 _ _ _ Hi Hq) as (p' & E & Bs).
        exists p'. split; auto. eapply beside_theirs; [|exact Bs]. apply (others_spare i (length l1) js js' w w1); auto.
    + intros k Hk. rewrite I2 by auto. apply On. apply Hk. eapply nth_error_In; eauto.
Qed.
End Pools.

Lemma pool_unharmed pss w w' l : processes_ok w pss -> no_file_above (List.concat pss) w -> separate pss ->
  fpool_run w (map jobs_p pss) w' l ->
  (forall i js, nth_error pss i = Some js -> exists p', nth_error l i = Some p' /\ unharmed js w p' w') /\
  forall k, (forall js, In js pss -> ~ jobs_file js k) -> w_files w' k = w_files w k.
Proof.
  intros Ok Na Sp R.
  assert (Pr : forall js, In js pss -> process_ok w js).
  { intros js Hj. assert (Sub : forall j, In j js -> In j (List.concat pss)) by (intros; apply in_concat; eauto).
    destruct Ok as (O1 & O2). split; [auto|]. split; [intros j j' k c H1 H2; eauto|].
    intros b n (j & H1 & ->). apply Na. exists j. auto. }
  assert (L : in_lines pss (map jobs_p pss)).
  { unfold in_lines. assert (X : forall l, (forall js, In js l -> process_ok w js) ->
      Forall2 (fun js p => within (jobs_file js) (jobs_base js) p) l (map jobs_p l)).
    { induction l0 as [|js l0 IH]; intros H; simpl; constructor; [|apply IH; intros; apply H; simpl; auto].
      apply (safe_within _ _ (complete_of js) [] none). apply (jobs_safe _ _ js []); [intros k; reflexivity|].
      apply jobs_in with (w := w). apply H. simpl. auto. }
    auto. }
  destruct (pool_beside pss w Ok Sp _ _ _ _ R L) as (I1 & I2). split; auto.
  intros i js Hi. assert (E := map_nth_error jobs_p _ _ Hi). destruct (I1 _ _ _ Hi E) as (p' & Hp & Bs).
  exists p'. split; auto. apply beside_unharmed; auto. apply Pr. eapply nth_error_In; eauto.
Qed.

(** Runs without failures are such runs. *)
Lemma pool_fpool {A} w (l : list (prog A)) w' l' : pool_run w l w' l' -> fpool_run w l w' l'.
Proof.
  intros R. induction R as [|w l w1 l1 w2 l2 S R IH]; [constructor|]. destruct S. eapply frun_move; [apply fs_ok; eauto|]. auto.
Qed.
Lemma fpool_app {A} w (l : list (prog A)) w1 l1 w2 l2 : fpool_run w l w1 l1 -> fpool_run w1 l1 w2 l2 -> fpool_run w l w2 l2.
Proof. intros R. revert w2 l2. induction R; intros; auto. eapply frun_move; eauto. Qed.

(** * No run goes on for ever *)
Lemma fstep_kinds {A} w (p : prog A) w' p' : fstep w p w' p' ->
  pless p' p \/
  p' = p /\ (missing w' p < missing w p)%nat /\ forall k, (missing_on w' k <= missing_on w k)%nat.
Proof.
  intros S. destruct S as [w p w' p' S| | | | | |]; [apply step_kinds; exact S|left; constructor..]. auto.
Qed.
Lemma fpool_ends {A} (l : list (prog A)) w :
  ~ exists f : nat -> world * list (prog A), f 0%nat = (w, l) /\
      forall n, exists l1 p p' l2, snd (f n) = l1 ++ p :: l2 /\ snd (f (S n)) = l1 ++ p' :: l2 /\
        fstep (fst (f n)) p (fst (f (S n))) p'.
Proof.
  assert (Hl := lless_acc l). revert w. induction Hl as [l _ IH].
  intros w. remember (missings w l) as n eqn:En. revert w En. induction n as [n IHn] using lt_wf_ind. intros w -> (f & E & S).
  destruct (S 0%nat) as (l1 & p & p' & l2 & E1 & E2 & Hs). rewrite E in E1, Hs. cbn [fst snd] in E1, Hs. subst l.
  assert (Go : forall m, exists a b c d, snd (f (Datatypes.S m)) = a ++ b :: d /\ snd (f (Datatypes.S (Datatypes.S m))) = a ++ c :: d /\
    fstep (fst (f (Datatypes.S m))) b (fst (f (Datatypes.S (Datatypes.S m)))) c) by (intros m; apply S).
  destruct (fstep_kinds _ _ _ _ Hs) as [H|(-> & H1 & H2)].
  - apply (IH (snd (f 1%nat))) with (w := fst (f 1%nat)).
    + rewrite E2. clear - H. induction l1 as [|x l1 IH]; simpl; constructor; auto.
    + exists (fun n => f (Datatypes.S n)). split; [destruct (f 1%nat); reflexivity|exact Go].
  - apply (IHn (missings (fst (f 1%nat)) (l1 ++ p :: l2))) with (w := fst (f 1%nat)); [|reflexivity|].
    + assert (L1 := missings_le w _ l1 H2). assert (L2 := missings_le w _ l2 H2).
      unfold missings in *. rewrite !map_app. cbn [map]. rewrite !list_sum_app.
      set (a := list_sum (map (missing (fst (f 1%nat))) l1)) in *. set (b := list_sum (map (missing (fst (f 1%nat))) l2)) in *.
      change (list_sum (missing (fst (f 1%nat)) p :: map (missing (fst (f 1%nat))) l2)) with (missing (fst (f 1%nat)) p + b)%nat.
      change (list_sum (missing w p :: map (missing w) l2)) with (missing w p + list_sum (map (missing w) l2))%nat. lia.
    + exists (fun n => f (Datatypes.S n)). split; [rewrite <- E2; destruct (f 1%nat); reflexivity|exact Go].
Qed.

(** * Every failure of a process that runs alone is one of the steps *)
Lemma fstep_peq {A} w (p : prog A) w1 p1 q : fstep w p w1 p1 -> peq p q -> exists q1, fstep w q w1 q1 /\ peq p1 q1.
Proof.
  intros S Q. destruct Q as [o|k f g Q|k f g Q|k f g Q|f g Q|k z d f g Q]; inversion S as [? ? ? ? X| | | | | |? ? X]; subst;
    try (exists (Done Crash); split; [apply fs_killed; intros ? E; solve [discriminate|destruct (X _ eq_refl)]|constructor]).
  - inversion X.
  - inversion X; subst. eexists. split; [apply fs_ok; constructor|]. auto.
  - eexists. split; [apply fs_stat_err|]. auto.
  - inversion X; subst.
    + eexists. split; [apply fs_ok; econstructor; eauto|]. auto.
    + eexists. split; [apply fs_ok, step_mkdir; eauto|]. constructor. auto.
  - eexists. split; [apply fs_mkdirs_err|]. auto.
  - inversion X; subst. eexists. split; [apply fs_ok; econstructor; eauto|]. auto.
  - eexists. split; [apply fs_create_err|]. auto.
  - inversion X; subst. eexists. split; [apply fs_ok; constructor|]. auto.
  - eexists. split; [apply fs_seek_err|]. auto.
  - inversion X; subst; (eexists; split; [apply fs_ok; constructor; auto|]); auto. constructor. auto.
  - eexists. split; [apply fs_put_err|]. auto.
Qed.
Definition alone_run {A} (w : world) (p : prog A) (w' : world) (p' : prog A) : Prop := beside (fun _ _ => False) w p w' p'.
Lemma alone_peq {A} w (p : prog A) w' o : alone_run w p w' (Done o) -> forall q, peq p q -> alone_run w q w' (Done o).
Proof.
  intros R. unfold alone_run in *. remember (Done o) as r. induction R as [|? ? ? ? ? ? S R IH|? ? ? ? ? []]; intros q Q; subst.
  - inversion Q; subst. constructor.
  - destruct (fstep_peq _ _ _ _ _ S Q) as (q1 & S1 & Q1). eapply beside_mine; eauto.
Qed.
Lemma alone_pool {A} w (p : prog A) w' p' : alone_run w p w' p' -> fpool_run w [p] w' [p'].
Proof. intros R. induction R as [|? ? ? ? ? ? S R IH|? ? ? ? ? []]; [constructor|]. apply (frun_move _ [] _ [] _ _ _ _ S IH). Qed.

Section Failing.
Context {A : Type} (F B : key -> Prop) (P : own -> outcome A -> Prop).
Hypothesis KB : forall k b, F k -> B b -> is_prefix_of k b = false.
Definition found (w : world) (p : prog A) (o : outcome A) (v : world) : Prop :=
  exists w', alone_run w p w' (Done o) /\ forall k, w_files w' k = w_files v k.
Lemma found_step w p w1 p1 o v : fstep w p w1 p1 -> found w1 p1 o v -> found w p o v.
Proof. intros S (w' & R & E). exists w'. split; auto. eapply beside_mine; eauto. Qed.
Lemma found_end w p w1 o v : fstep w p w1 (Done o) -> (forall k, w_files w1 k = w_files v k) -> found w p o v.
Proof. intros S E. eapply found_step; [exact S|]. exists w1. split; auto. constructor. Qed.
Lemma found_up w p w1 p1 fs o v : fstep w p w1 p1 -> gives_up P p1 -> interp p1 (set_faults fs w1) = (o, v) -> found w p o v.
Proof.
  intros S (o' & -> & _) E. simpl in E. unfold lift in E. injection E as <- <-. eapply found_end; eauto.
Qed.
Lemma faults_cases fs w : (next_fault (set_faults fs w) = (FOk, set_faults (tl fs) w)) \/
  exists f, f <> FOk /\ next_fault (set_faults fs w) = (f, set_faults (tl fs) w).
Proof. destruct fs as [|[|x|n x|n] fs]; cbn; auto; right; eexists; split; try reflexivity; discriminate. Qed.

Lemma found_killed w p o v fs : (forall o, p <> Done o) -> (o, v) = (Crash, set_faults fs w) -> found w p o v.
Proof. intros N [= -> ->]. eapply found_end; [apply fs_killed; exact N|]. auto. Qed.
(** A call that may fail and that otherwise goes on from [w1] with [p1]. *)
Lemma call_found w p p1 w1 (er : io_kind -> prog A) fs o v :
  (forall o, p <> Done o) -> fstep w p w1 p1 -> (forall x, fstep w p w (er x)) -> (forall x, gives_up P (er x)) ->
  (match next_fault (set_faults fs w) with
   | (FOk, _) => interp p1 (set_faults (tl fs) w1)
   | (FErr x, u) | (FShort _ x, u) => interp (er x) u
   | (FCrash _, u) => (Crash, u)
   end) = (o, v) ->
  (interp p1 (set_faults (tl fs) w1) = (o, v) -> found w1 p1 o v) -> found w p o v.
Proof.
  intros Nd S Se Gu E K. destruct (faults_cases fs w) as [N|(x & Nx & N)]; rewrite N in E.
  - eapply found_step; eauto.
  - destruct x as [|x|n x|n]; [congruence| | |].
    + exact (found_up w p w (er x) _ o v (Se x) (Gu x) E).
    + exact (found_up w p w (er x) _ o v (Se x) (Gu x) E).
    + eapply found_killed; eauto.
Qed.
Lemma mkdirs_steps kd w b h : good F B kd w -> B b ->
  fstep w (MkDirs b h) (set_faults [] (set_dirs (fun x => w_dirs w x || is_prefix_of x b) w)) (h (Ok tt) : prog A).
Proof. intros G Hb. apply fs_ok, step_mkdirs. exact (mkdirs_good F B kd w b [] G Hb). Qed.
Lemma mkdirs_found kd w b h p1 fs o v : good F B kd w -> B b -> (forall x, gives_up P (h (Er x))) -> peq (h (Ok tt)) p1 ->
  (forall w1 fs, good F B (b :: kd) w1 -> w_files w1 = w_files w -> interp p1 (set_faults fs w1) = (o, v) -> found w1 p1 o v) ->
  interp (MkDirs b h) (set_faults fs w) = (o, v) -> found w (MkDirs b h) o v.
Proof.
  intros G Hb Gu Pe K E.
  set (w1 := set_faults [] (set_dirs (fun x => w_dirs w x || is_prefix_of x b) w)).
  assert (G1 : good F B (b :: kd) w1) by exact (good_dirs F B KB kd w b G Hb).
  assert (Sm : forall n u, w_files (if file_on_path b u then u else make_dirs b n u) = w_files u) by (intros n u; destruct (file_on_path b u); reflexivity).
  assert (Up : forall x u, w_files u = w_files w -> interp (h (Er x)) u = (o, v) -> found w (MkDirs b h) o v).
  { intros x u Fu Eu. destruct (Gu x) as (o' & Eo & _). rewrite Eo in Eu. injection Eu as <- <-.
    eapply found_end; [rewrite <- Eo; apply fs_mkdirs_err|]. intros k. rewrite Fu. reflexivity. }
  cbn [interp] in E. unfold mbind at 1, create_dir_all in E.
  destruct (faults_cases fs w) as [N|(x & Nx & N)]; rewrite N in E; [|destruct x as [|x|n x|n]; [congruence| | |]].
  - change (file_on_path b (set_faults (tl fs) w)) with (file_on_path b w) in E. rewrite (good_path F B kd w b G Hb) in E.
    eapply found_step; [exact (mkdirs_steps kd w b h G Hb)|]. fold w1.
    assert (E1 : interp (h (Ok tt)) (set_faults (tl fs) w1) = (o, v)) by exact E.
    rewrite (interp_peq _ _ Pe) in E1. destruct (K w1 (tl fs) G1 eq_refl E1) as (w' & R & Ew).
    exists w'. split; auto. eapply alone_peq; [exact R|]. apply peq_sym. auto.
  - eapply (Up x); [|exact E]. reflexivity.
  - eapply (Up x); [|exact E]. rewrite Sm. reflexivity.
  - injection E as <- <-. eapply found_end; [apply fs_killed; discriminate|]. intros k. rewrite Sm. reflexivity.
Qed.

Lemma failures_found kd g p : safe F B P kd g p -> forall w fs o v, good F B kd w -> owned F g w ->
  interp p (set_faults fs w) = (o, v) -> found w p o v.
Proof.
  intros H. induction H as [kd g o H|kd g k f Hk S1 IH1 S2 IH2|kd g b f h Hb Ef Pe S IH Gu|kd g b h Hb S IH Gu|kd g k f Hk Hp S IH Gu|kd g f S IH Gu|kd g k p d c f Hk Hg Hq Hd S IH Gu];
    intros w fs o' v G Ow E.
  - simpl in E. unfold lift in E. injection E as <- <-. exists w. split; auto. constructor.
  - cbn [interp] in E. unfold mbind at 1, path_exists, mbind at 1, syscall in E.
    destruct (faults_cases fs w) as [N|(x & Nx & N)]; rewrite N in E.
    + cbn [mret] in E. eapply found_step; [apply fs_ok; constructor|].
      change (on_disk k (set_faults (tl fs) w)) with (on_disk k w) in E. destruct (on_disk k w); [eapply IH1|eapply IH2]; eauto.
    + destruct x as [|x|n x|n]; [congruence| | |]; cbn [mret] in E;
        try solve [eapply found_step; [apply fs_stat_err|]; eapply IH2; eauto].
      eapply found_killed; [discriminate|]. symmetry. exact E.
  - assert (Mk : forall fs, interp (f false) (set_faults fs w) = (o', v) -> found w (f false) o' v).
    { clear E fs. intros fs E. rewrite Ef in *. apply (mkdirs_found kd w b h (f true) fs); auto.
      intros w1 fs1 G1 W1 E1. eapply IH; eauto. intros x y Hx. rewrite W1. auto. }
    cbn [interp] in E. unfold mbind at 1, path_exists, mbind at 1, syscall in E.
    destruct (faults_cases fs w) as [N|(x & Nx & N)]; rewrite N in E.
    + cbn [mret] in E. eapply found_step; [apply fs_ok; constructor|].
      change (on_disk b (set_faults (tl fs) w)) with (on_disk b w) in E. rewrite (good_base F B kd w b G Hb) in *.
      destruct (is_dir b w) eqn:D; [|eapply Mk; eauto]. eapply IH; eauto. apply good_more; auto.
    + destruct x as [|x|n x|n]; [congruence| | |]; cbn [mret] in E;
        try solve [eapply found_step; [apply fs_stat_err|]; eapply Mk; eauto].
      eapply found_killed; [discriminate|]. symmetry. exact E.
  - apply (mkdirs_found kd w b h (h (Ok tt)) fs); auto; [apply peq_refl|].
    intros w1 fs1 G1 W1 E1. eapply IH; eauto. intros x y Hx. rewrite W1. auto.
  - set (w1 := set_faults [] (set_files (kupd k (Some []) (w_files w)) w)).
    assert (Cr : forall fs, is_dir k (set_faults fs w) = false /\ is_dir (parent k) (set_faults fs w) = true).
    { intros fs'. destruct G as (G1 & _ & G3). split; [exact (G1 k Hk)|exact (proj2 (G3 _ Hp))]. }
    apply (call_found w _ (f (Ok (SFile k 0))) w1 (fun x => f (Er x)) fs); auto.
    + discriminate.
    + apply fs_ok, step_create. unfold file_create, syscall.
      change (next_fault (set_faults [] w)) with (FOk, set_faults [] w). destruct (Cr []) as (C1 & C2). cbv beta iota. rewrite C1, C2. reflexivity.
    + intros x. apply fs_create_err.
    + rewrite <- E. cbn [interp]. unfold mbind at 1, file_create, syscall.
      destruct (faults_cases fs w) as [N|(x & Nx & N)]; rewrite N; [|destruct x; congruence].
      destruct (Cr (tl fs)) as (-> & ->). reflexivity.
    + intros E1. eapply IH; eauto; [exact (good_file F B KB kd w k (Some []) G Hk)|exact (owned_set F g w k [] Ow Hk)].
  - apply (call_found w _ (f (Ok tt)) w (fun x => f (Er x)) fs); auto.
    + discriminate.
    + apply fs_ok, step_seek.
    + intros x. apply fs_seek_err.
    + rewrite <- E. cbn [interp]. unfold mbind at 1, syscall.
      destruct (faults_cases fs w) as [N|(x & Nx & N)]; rewrite N; [|destruct x; congruence]. reflexivity.
    + intros E1. eapply IH; eauto.
  - destruct (Ow k c Hg) as (_ & Wk). assert (Wc : forall fs, file_content k (set_faults fs w) = c) by (intros; unfold file_content; simpl; rewrite Wk; auto).
    assert (Part : forall n, let u := set_files (kupd k (Some (splice p (firstn n d) c)) (w_files w)) w in
      exists u' i, (i <= length d)%nat /\ (forall x, w_files u' x = w_files u x) /\ len (firstn n d) = Z.of_nat i /\
        forall o v, found u' (PutAt k (p + Z.of_nat i) (skipn i d) f) o v -> found w (PutAt k p d f) o v).
    { intros n u. set (i := Nat.min n (length d)). assert (Ei : firstn n d = firstn i d).
      { unfold i. destruct (Nat.le_gt_cases n (length d)); [rewrite Nat.min_l by lia; auto|].
        rewrite Nat.min_r by lia. rewrite firstn_all. apply firstn_all2. lia. }
      assert (Li : (i <= length d)%nat) by (unfold i; lia).
      assert (Ln : len (firstn n d) = Z.of_nat i) by (unfold len; rewrite firstn_length; unfold i; auto).
      destruct (Nat.eq_dec i 0) as [Z0|Nz].
      - exists w, 0%nat. split; [lia|]. split.
        + intros x. unfold u. rewrite Ei, Z0. cbn [firstn]. rewrite splice_nil by auto. simpl. unfold kupd.
          destruct (key_eqb x k) eqn:Ex; auto. apply key_eqb_eq in Ex. subst. auto.
        + split; [lia|]. intros o v0. cbn [skipn]. change (Z.of_nat 0) with 0. rewrite Z.add_0_r. auto.
      - exists (file_write k p (firstn i d) w), i. split; auto. split.
        + intros x. unfold u, file_write. simpl. rewrite (Wc []) || unfold file_content. rewrite Wk, Ei. auto.
        + split; [auto|]. intros o v0 Fd. assert (Lp : (1 <= i <= length d)%nat) by lia.
          exact (found_step _ _ _ _ _ _ (fs_ok _ _ _ _ (step_put w k p d f i Lp)) Fd). }
    cbn [interp] in E. unfold mbind at 1, write_all in E. destruct d as [|y d]; [congruence|]. set (dd := y :: d) in *.
    destruct (faults_cases fs w) as [N|(x & Nx & N)]; rewrite N in E.
    + assert (Ld : (1 <= length dd <= length dd)%nat) by (unfold dd; simpl; lia).
      eapply found_step; [exact (fs_ok _ _ _ _ (step_put w k p dd f (length dd) Ld))|].
      eapply found_step; [apply fs_ok; rewrite skipn_all; apply step_put_done|].
      rewrite firstn_all. unfold file_write in *. rewrite Wc in E. assert (Wc0 : file_content k w = c) by exact (Wc (w_faults w)). rewrite Wc0.
      eapply IH; [exact (good_file F B KB kd w k (Some (splice p dd c)) G Hk)|exact (owned_set F g w k (splice p dd c) Ow Hk)|exact E].
    + destruct x as [|x|n x|n]; [congruence| | |].
      * eapply found_up; [apply fs_put_err|apply Gu|exact E].
      * cbv zeta in E. destruct (Part n) as (u' & i & Li & Eu & Ln & K). apply K. rewrite Ln in E.
        destruct (Gu x (SFile k (p + Z.of_nat i))) as (o1 & Eo & _). rewrite Eo in E. simpl in E. unfold lift in E. injection E as <- <-.
        eapply found_end; [rewrite <- Eo; apply fs_put_err|]. intros z. rewrite Eu. unfold file_write. rewrite Wc. reflexivity.
      * destruct (Part n) as (u' & i & Li & Eu & Ln & K). apply K. injection E as <- <-.
        eapply found_end; [apply fs_killed; discriminate|]. intros z. rewrite Eu. unfold file_write. rewrite Wc. reflexivity.
Qed.
End Failing.
Lemma jobs_failures js w fs o v : process_ok w js -> jobs_m js (set_faults fs w) = (o, v) ->
  exists w', fpool_run w [jobs_p js] w' [Done o] /\ forall k, w_files w' k = w_files v k.
Proof.
  intros (Hj & Ha & Hn) E. rewrite <- interp_jobs in E.
  assert (G : good (jobs_file js) (jobs_base js) [] w).
  { split; [apply file_not_dir; auto|]. split; [intros b n Hb; apply Hn; auto|]. intros b []. }
  destruct (failures_found _ _ (complete_of js) (apart_above js Ha) [] none (jobs_p js)) with (w := w) (fs := fs) (o := o) (v := v) as (w' & R & Ew); auto.
  - apply (jobs_safe _ _ js []); [intros k; reflexivity|]. apply jobs_in with (w := w). auto.
  - intros k c. discriminate.
  - exists w'. split; auto. apply alone_pool. auto.
Qed.

(** * Running a schedule *)
Lemma refuse_step {A} w (p : prog A) : p = Done match p with Done o => o | _ => Crash end \/ fstep w p w (refuse p).
Proof. destruct p; simpl; [auto|right; first [apply fs_stat_err|apply fs_mkdirs_err|apply fs_create_err|apply fs_seek_err|apply fs_put_err]..]. Qed.
Lemma kill_step {A} w (p : prog A) : p = Done match p with Done o => o | _ => Crash end \/ fstep w p w (kill p).
Proof. destruct p; simpl; [auto|right; apply fs_killed; discriminate..]. Qed.
Lemma fschedule_run {A} s : forall w (l : list (prog A)), fpool_run w l (fst (fschedule s w l)) (snd (fschedule s w l)).
Proof.
  induction s as [|m s IH]; intros w l; cbn [fschedule]; [constructor|]. cbv zeta.
  destruct (nth_error l _) as [p|] eqn:E; [|constructor].
  destruct (nth_error_split _ _ E) as (l1 & l2 & -> & L).
  assert (Pb : forall p', put_back (match m with Go i | Fail i | Kill i => i end) p' (l1 ++ p :: l2) = l1 ++ p' :: l2).
  { intros p'. unfold put_back. rewrite firstn_app, L, Nat.sub_diag, firstn_O, app_nil_r, <- L, firstn_all. f_equal. f_equal.
    rewrite skipn_app, skipn_all2 by lia. replace (S (length l1) - length l1)%nat with 1%nat by lia. reflexivity. }
  destruct m as [i|i|i].
  - destruct (advance w p) as [[w' p']|] eqn:Ea; [|apply IH]. apply advance_step in Ea. rewrite Pb.
    eapply frun_move; [apply fs_ok; exact Ea|apply IH].
  - rewrite Pb. destruct (refuse_step w p) as [D|S]; [|eapply frun_move; [exact S|apply IH]].
    rewrite D. simpl. apply IH.
  - rewrite Pb. destruct (kill_step w p) as [D|S]; [|eapply frun_move; [exact S|apply IH]].
    rewrite D. simpl. apply IH.
Qed.
