(** The calls in processes that run side by side. *)
From Verif Require Import Base BaseFacts Codec CodecSpec CodecFacts Storage PathFacts StorageSpec StorageFacts StorageMore Structs Writers MultiVecFacts Conc ConcFacts ConcSpec ConcVec.
Local Open Scope list_scope.
Local Open Scope Z_scope.

Lemma ok_peq {A} F B d0 (post : list key -> own -> A -> Prop) kd sn g p q :
  ok F B d0 post kd sn g p -> peq p q -> ok F B d0 post kd sn g q.
Proof.
  intros H. revert q. induction H; intros q' Q; inversion Q; subst.
  - apply ok_done; auto.
  - apply ok_look; auto.
  - apply ok_base; auto.
  - apply ok_mkdirs; auto.
  - apply ok_create; auto.
  - apply ok_seek; auto.
  - apply ok_put with (c := c); auto.
Qed.

Section Calls.
Variables (F B : key -> Prop) (d0 : key -> bool).
Context {A : Type} (post : list key -> own -> A -> Prop).
Hypothesis P : forall sn g h a, osame g h -> post sn g a -> post sn h a.
Notation fine := (ok F B d0 post).

Lemma fine_assoc {X Y} kd sn g (p : prog X) (q : X -> prog Y) h :
  fine kd sn g (pbind p (fun x => pbind (q x) h)) -> fine kd sn g (pbind (pbind p q) h).
Proof. intros H. eapply ok_peq; [exact H|]. apply peq_assoc. Qed.
Lemma fine_same kd sn g h p : osame g h -> fine kd sn g p -> fine kd sn h p.
Proof. apply ok_same. exact P. Qed.
Lemma fine_open kd sn g base name f : let k := key_of (path_join base name) in
  B (key_of base) -> F k -> parent k = key_of base ->
  (forall kd', fine kd' sn (kupd k (Some []) g) (f (Ok (SFile k 0)))) ->
  fine kd sn g (pbind (create_output_stream_p base name) f).
Proof.
  intros k Hb Hf Hp H. unfold create_output_stream_p. cbn [pbind]. apply ok_base; auto.
  - unfold ptry. cbn [pbind]. apply ok_create; auto. fold k. rewrite Hp. left. auto.
  - intros Hd _. unfold ptry. cbn [pbind]. apply ok_mkdirs; auto. cbn [pbind].
    apply ok_create; auto. fold k. rewrite Hp. left. auto.
Qed.
Lemma fine_write kd sn g k c p d f : F k -> g k = Some c -> 0 <= p <= len c ->
  fine kd sn (kupd k (Some (splice p d c)) g) (f (Ok tt, SFile k (p + len d))) ->
  fine kd sn g (pbind (write_all_p (SFile k p) d) f).
Proof.
  intros Hf Hg Hp H. destruct d as [|x d].
  - simpl. rewrite splice_nil in H by auto. unfold len in H. simpl in H. rewrite Z.add_0_r in H.
    eapply fine_same; [|exact H]. intros y. unfold kupd. destruct (key_eqb y k) eqn:E; auto. apply key_eqb_eq in E. subst. auto.
  - simpl. apply ok_put with (c := c); auto.
Qed.
Lemma kupd_twice (k : key) (u v : option (list Z)) (g : own) : osame (kupd k u (kupd k v g)) (kupd k u g).
Proof. intros x. unfold kupd. destruct (key_eqb x k); auto. Qed.
Lemma osame_sym (g h : own) : osame g h -> osame h g.
Proof. intros H k. auto. Qed.
Lemma fine_append kd sn g k c d f : F k ->
  fine kd sn (kupd k (Some (c ++ d)) g) (f (Ok tt, SFile k (len c + len d))) ->
  fine kd sn (kupd k (Some c) g) (pbind (write_all_p (SFile k (len c)) d) f).
Proof.
  intros Hf H. apply fine_write with (c := c); auto; [apply kupd_same|unfold len; lia|]. rewrite splice_end.
  eapply fine_same; [|exact H]. apply osame_sym, kupd_twice.
Qed.
Lemma fine_size b e kd sn g k c v f : F k ->
  fine kd sn (kupd k (Some (c ++ le_bytes 8 v)) g) (f (Ok tt, SFile k (len c + 8))) ->
  fine kd sn (kupd k (Some c) g) (pbind (write_size_p b e v (SFile k (len c))) f).
Proof.
  intros Hf H. unfold write_size_p. rewrite write_size_bytes. cbn [pbind]. apply fine_append; auto.
Qed.

Lemma fine_schema kd sn g k schema f : F k ->
  fine kd sn (kupd k (Some schema) g) (f (Ok tt)) ->
  fine kd sn (kupd k (Some []) g) (pbind (write_schema_p schema (SFile k 0)) f).
Proof.
  intros Hf H. unfold write_schema_p, pstry. apply fine_assoc. apply (fine_append kd sn g k []); auto.
Qed.
Lemma fine_to_stream b e kd sn g k data f : F k ->
  fine kd sn (kupd k (Some (resource_bytes data)) g) (f (Ok tt)) ->
  fine kd sn (kupd k (Some []) g) (pbind (write_to_stream_p b e data (SFile k 0)) f).
Proof.
  intros Hf H. unfold write_to_stream_p, pstry. apply fine_assoc. apply (fine_size b e kd sn g k []); auto.
  apply fine_assoc. apply (fine_append kd sn g k (le_bytes 8 (len data))); auto.
  apply fine_assoc. replace (len (le_bytes 8 (len data)) + len data) with (len (le_bytes 8 (len data) ++ data)) by apply len_app.
  apply fine_append; [exact Hf|]. cbn [pbind]. rewrite <- app_assoc. exact H.
Qed.

Section Call.
Variables (base name : string).
Let k := key_of (path_join base name).
Let ks := key_of (path_join base (schema_name name)).
Hypothesis Hb : B (key_of base).
Hypothesis Hk : F k.
Hypothesis Hs : F ks.
Hypothesis Pk : parent k = key_of base.
Hypothesis Ps : parent ks = key_of base.
Lemma fine_write_call b e kd sn g schema data f :
  (forall kd', fine kd' sn (kupd ks (Some schema) (kupd k (Some (resource_bytes data)) g)) (f (Ok tt))) ->
  fine kd sn g (pbind (write_p b e base name schema data) f).
Proof.
  intros H. unfold write_p, ptry. apply fine_assoc. apply fine_open; auto. intros kd1. apply fine_assoc.
  apply fine_to_stream; auto. apply fine_assoc. apply fine_open; auto. intros kd2. apply fine_schema; auto.
Qed.
Lemma fine_open_p b e kd sn g schema f :
  (forall kd', fine kd' sn (kupd k (Some (le_bytes 8 0)) (kupd ks (Some schema) g)) (f (Ok (SFile k (len (le_bytes 8 0)))))) ->
  fine kd sn g (pbind (open_p b e base name schema) f).
Proof.
  intros H. unfold open_p, ptry, pstry. apply fine_assoc. apply fine_open; auto. intros kd1. apply fine_assoc.
  apply fine_schema; auto. apply fine_assoc. apply fine_open; auto. intros kd2. apply fine_assoc.
  apply (fine_size b e kd2 sn _ k []); auto.
Qed.
End Call.
Section File.
Variable k : key.
Hypothesis Hk : F k.
Lemma fine_finish_p b e kd sn g data f :
  fine kd sn (kupd k (Some (resource_bytes data)) g) (f (Ok tt)) ->
  fine kd sn (kupd k (Some (le_bytes 8 0 ++ data)) g) (pbind (finish_p b e (len data) (SFile k (len (le_bytes 8 0 ++ data)))) f).
Proof.
  intros H. unfold finish_p, pstry. apply fine_assoc. apply fine_append; auto. apply fine_assoc.
  cbn [pbind seek_start_p]. apply ok_seek. cbn [pbind].
  unfold write_size_p. rewrite write_size_bytes. cbn [pbind]. apply fine_assoc. 
  apply fine_write with (c := (le_bytes 8 0 ++ data) ++ zeros PADDING_SIZE); auto; [apply kupd_same|unfold len; lia|].
  cbn [pbind]. rewrite splice_start, le_bytes_length, <- app_assoc. change (length (le_bytes 8 0)) with 8%nat.
  change (skipn 8 (le_bytes 8 0 ++ data ++ zeros PADDING_SIZE)) with (data ++ zeros PADDING_SIZE).
  eapply fine_same; [apply osame_sym, kupd_twice|]. apply H.
Qed.
Lemma fine_chunks b kd sn g cs : forall c n f,
  0 <= n -> n + len (List.concat cs) <= isize_max ->
  fine kd sn (kupd k (Some (c ++ List.concat cs)) g) (f (Ok (n + len (List.concat cs), SFile k (len c + len (List.concat cs))))) ->
  fine kd sn (kupd k (Some c) g) (pbind (chunks_p b cs n (SFile k (len c))) f).
Proof.
  induction cs as [|x cs IH]; intros c n f Hn Hl H.
  - simpl in *. rewrite app_nil_r in H. unfold len in H at 2 3. simpl in H. rewrite !Z.add_0_r in H. exact H.
  - simpl in H, Hl. rewrite len_app in H, Hl. cbn [chunks_p]. unfold pstry. apply fine_assoc. apply fine_append; auto.
    cbn [pbind].
    assert (X : uadd b n (len x) = Ret (n + len x)).
    { unfold uadd, wrap_or_panic. destruct (_ && _) eqn:C; auto. exfalso. unfold usize_limit, isize_max, len in *. lia. }
    rewrite X. cbn [pbind]. rewrite <- len_app. apply IH.
    + unfold len in *. lia.
    + lia.
    + rewrite <- app_assoc, len_app. rewrite <- !Z.add_assoc. exact H.
Qed.
End File.
Lemma fine_stream_call base name b e kd sn g schema cs f :
  let k := key_of (path_join base name) in let ks := key_of (path_join base (schema_name name)) in
  B (key_of base) -> F k -> F ks -> parent k = key_of base -> parent ks = key_of base -> len (List.concat cs) <= isize_max ->
  (forall kd', fine kd' sn (kupd k (Some (resource_bytes (List.concat cs))) (kupd ks (Some schema) g)) (f (Ok tt))) ->
  fine kd sn g (pbind (stream_p b e base name schema cs) f).
Proof.
  intros k ks Hb Hk Hs Pk Ps Hl H. unfold stream_p, ptry. apply fine_assoc. apply fine_open_p; auto. intros kd1. apply fine_assoc.
  apply (fine_chunks k Hk b kd1 sn _ cs (le_bytes 8 0) 0); [lia|lia|]. cbn [fst snd]. rewrite <- len_app. apply fine_finish_p; auto.
Qed.
End Calls.

Lemma osame_trans (f g h : own) : osame f g -> osame g h -> osame f h.
Proof. intros H1 H2 k. rewrite H1. apply H2. Qed.

(** Vectors. *)
Section Vectors.
Variables (F B : key -> Prop) (d0 : key -> bool) (post : list key -> own -> result unit rs_error -> Prop).
Hypothesis P : forall sn g h a, osame g h -> post sn g a -> post sn h a.
Notation fine := (ok F B d0 post).
Lemma size_adds b n (c : list Z) m : 0 <= n -> 0 <= m -> n + (len c + m) <= isize_max -> uadd b n (len c) = Ret (n + len c).
Proof.
  intros Hn Hm Hl. unfold uadd, wrap_or_panic. destruct (_ && _) eqn:C; auto. exfalso. assert (X := len_nonneg c). unfold usize_limit, isize_max in *. lia.
Qed.
Lemma fine_chain b k kd sn g cs : F k -> forall c n G, 0 <= n -> n + len (List.concat cs) <= isize_max ->
  fine kd sn (kupd k (Some (c ++ List.concat cs)) g) (G (n + len (List.concat cs)) (SFile k (len (c ++ List.concat cs)))) ->
  fine kd sn (kupd k (Some c) g) (chain b cs n (SFile k (len c)) G).
Proof.
  intros Hk. induction cs as [|x cs IH]; intros c n G Hn Hl H; cbn [chain List.concat] in *.
  - rewrite app_nil_r, len_nil, Z.add_0_r in H. exact H.
  - rewrite len_app in Hl. assert (X := len_nonneg x). assert (X1 := len_nonneg (List.concat cs)). unfold write_then. apply fine_append; auto. cbn [pbind].
    rewrite (size_adds b n x (len (List.concat cs))) by lia. cbn [pbind]. rewrite <- len_app. apply IH; [lia|lia|].
    rewrite <- app_assoc. rewrite <- Z.add_assoc. rewrite <- len_app. exact H.
Qed.
Lemma kupd_swap (k1 k2 : key) (u v : option (list Z)) (g : own) : k1 <> k2 -> osame (kupd k1 u (kupd k2 v g)) (kupd k2 v (kupd k1 u g)).
Proof.
  intros N x. unfold kupd. destruct (key_eqb x k1) eqn:E1, (key_eqb x k2) eqn:E2; auto.
  apply key_eqb_eq in E1. apply key_eqb_eq in E2. congruence.
Qed.
Lemma fine_chain2 b k1 k2 kd sn g cs : F k1 -> F k2 -> k1 <> k2 -> forall c1 n1 c2 n2 G, 0 <= n1 -> 0 <= n2 ->
  n1 + len (for_file true cs) <= isize_max -> n2 + len (for_file false cs) <= isize_max ->
  fine kd sn (kupd k1 (Some (c1 ++ for_file true cs)) (kupd k2 (Some (c2 ++ for_file false cs)) g))
    (G (n1 + len (for_file true cs)) (SFile k1 (len (c1 ++ for_file true cs))) (n2 + len (for_file false cs)) (SFile k2 (len (c2 ++ for_file false cs)))) ->
  fine kd sn (kupd k1 (Some c1) (kupd k2 (Some c2) g)) (chain2 b cs n1 (SFile k1 (len c1)) n2 (SFile k2 (len c2)) G).
Proof.
  intros H1 H2 N. induction cs as [|[[|] x] cs IH]; intros c1 n1 c2 n2 G Hn1 Hn2 L1 L2 H; cbn [chain2].
  - unfold for_file in H. cbn [filter map List.concat] in H. rewrite !app_nil_r, len_nil, !Z.add_0_r in H. exact H.
  - change (for_file true ((true, x) :: cs)) with (x ++ for_file true cs) in *. change (for_file false ((true, x) :: cs)) with (for_file false cs) in *.
    rewrite len_app in L1. assert (X := len_nonneg x). assert (X1 := len_nonneg (for_file true cs)). unfold write_then. apply fine_append; auto. cbn [pbind].
    rewrite (size_adds b n1 x (len (for_file true cs))) by lia. cbn [pbind]. rewrite <- len_app. apply IH; [lia|lia|lia|lia|].
    rewrite <- app_assoc. rewrite <- (Z.add_assoc n1). rewrite <- len_app. exact H.
  - change (for_file false ((false, x) :: cs)) with (x ++ for_file false cs) in *. change (for_file true ((false, x) :: cs)) with (for_file true cs) in *.
    rewrite len_app in L2. assert (X := len_nonneg x). assert (X1 := len_nonneg (for_file false cs)). unfold write_then.
    eapply fine_same; [exact P|apply osame_sym, kupd_swap; exact N|]. apply fine_append; auto. cbn [pbind].
    rewrite (size_adds b n2 x (len (for_file false cs))) by lia. cbn [pbind]. rewrite <- len_app.
    eapply fine_same; [exact P|apply kupd_swap; exact N|]. apply IH; [lia|lia|lia|lia|].
    rewrite <- app_assoc. rewrite <- (Z.add_assoc n2). rewrite <- len_app. exact H.
Qed.
Section Call.
Variables (base name : string).
Let k := key_of (path_join base name).
Let ks := key_of (path_join base (schema_name name)).
Let ki := key_of (path_join base (index_name name)).
Let kis := key_of (path_join base (schema_name (index_name name))).
Hypothesis Hb : B (key_of base).
Hypothesis Hk : F k.
Hypothesis Hs : F ks.
Hypothesis Pk : parent k = key_of base.
Hypothesis Ps : parent ks = key_of base.
Lemma fine_vector b e kd sn g schema cs f : len (List.concat cs) <= isize_max ->
  (forall kd', fine kd' sn (kupd k (Some (resource_bytes (List.concat cs))) (kupd ks (Some schema) g)) (f (Ok tt))) ->
  fine kd sn g (vector_then b e base name schema cs f).
Proof.
  intros Hl H. unfold vector_then, open_then. apply fine_open_p; auto. intros kd1.
  apply (fine_chain b k kd1 sn _ cs Hk (le_bytes 8 0) 0); [lia|lia|]. cbn [Z.add]. unfold finish_then. apply fine_finish_p; auto.
Qed.
Hypothesis Hi : F ki.
Hypothesis His : F kis.
Hypothesis Pi : parent ki = key_of base.
Hypothesis Pis : parent kis = key_of base.
Hypothesis Nd : NoDup [k; ks; ki; kis].
Lemma fine_multi b e kd sn g schema cs f : len (for_file true cs) <= isize_max -> len (for_file false cs) <= isize_max ->
  (forall kd', fine kd' sn (kupd k (Some (resource_bytes (for_file false cs))) (kupd ks (Some schema)
     (kupd ki (Some (resource_bytes (for_file true cs))) (kupd kis (Some (index_schema schema)) g)))) (f (Ok tt))) ->
  fine kd sn g (multi_then b e base name schema cs f).
Proof.
  intros L1 L2 H. assert (Nk : k <> ki /\ ks <> ki).
  { inversion Nd as [|? ? N1 D1]; subst. inversion D1 as [|? ? N2 D2]; subst. simpl in N1, N2. intuition congruence. }
  destruct Nk as (Nk & Nks). unfold multi_then, open_then. apply fine_open_p; auto. intros kd1. apply fine_open_p; auto. intros kd2.
  fold k ks ki kis.
  assert (Sw : forall u v w x, osame (kupd ki u (kupd k v (kupd ks w x))) (kupd k v (kupd ks w (kupd ki u x)))).
  { intros u v w x. eapply osame_trans; [apply kupd_swap; congruence|]. apply kupd_same_own. apply kupd_swap. congruence. }
  eapply fine_same; [exact P|apply Sw|].
  apply (fine_chain2 b ki k kd2 sn _ cs Hi Hk ltac:(congruence) (le_bytes 8 0) 0 (le_bytes 8 0) 0); [lia|lia|lia|lia|]. cbn [Z.add].
  unfold finish_then. apply fine_finish_p; auto. eapply fine_same; [exact P|apply kupd_swap; exact Nk|]. apply fine_finish_p; auto.
  eapply fine_same; [exact P| |apply H]. intros x. apply (kupd_same_own k). apply kupd_swap. congruence.
Qed.
End Call.
End Vectors.

(** * The calls of a process *)
Definition post_of (js : list job) (sn : list key) (g : own) (a : result unit rs_error) : Prop :=
  (a = Ok tt /\ osame g (final js)) \/
  exists d rest b e base aname aschema, js = d ++ JCreate b e base aname aschema :: rest /\
    a = Er (EIo KAlreadyExists (signature_name aname)) /\ osame g (final d) /\ In (res_key (FileStorage 0 base) (signature_name aname)) sn.
Lemma post_same js sn g h a : osame g h -> post_of js sn g a -> post_of js sn h a.
Proof.
  intros S [(E & H)|(d & rest & b & e & base & aname & aschema & E1 & E3 & E4 & E5)].
  - left. split; auto. eapply osame_trans; [apply osame_sym|]; eauto.
  - right. exists d, rest, b, e, base, aname, aschema. repeat (split; auto). eapply osame_trans; [apply osame_sym|]; eauto.
Qed.
Definition put_all (l : list (key * list Z)) (g : own) : own := fold_left (fun g x => kupd (fst x) (Some (snd x)) g) l g.
Lemma put_all_same l : forall g h, osame g h -> osame (put_all l g) (put_all l h).
Proof. induction l as [|x l IH]; intros g h S; simpl; auto. apply IH, kupd_same_own. auto. Qed.
Lemma final_snoc d j : osame (final (d ++ [j])) (put_all (job_files j) (final d)).
Proof.
  intros k. unfold final. rewrite flat_map_app, fold_left_app. simpl. rewrite app_nil_r. generalize (job_files j). intros l.
  set (v := fold_left _ _ None).
  assert (X : forall l g, put_all l g k = fold_left (fun acc x => if key_eqb k (fst x) then Some (snd x) else acc) l (g k)).
  { clear. induction l as [|x l IH]; intros g; simpl; auto. rewrite IH. reflexivity. }
  rewrite X. reflexivity.
Qed.
Lemma final_next d j g h : osame g (final d) -> osame h (put_all (job_files j) g) -> osame h (final (d ++ [j])).
Proof.
  intros S1 S2. eapply osame_trans; [exact S2|]. eapply osame_trans; [apply put_all_same; exact S1|]. apply osame_sym, final_snoc.
Qed.
Lemma valid_parent base name : valid_name name ->
  parent (key_of (path_join base name)) = key_of base /\ parent (key_of (path_join base (schema_name name))) = key_of base.
Proof.
  intros V. split; [exact (parent_res_key (FileStorage 0 base) name V)|exact (parent_res_key (FileStorage 0 base) _ (valid_schema _ V))].
Qed.

Lemma schema_first base name (u v : list Z) (g : own) :
  osame (kupd (key_of (path_join base name)) (Some u) (kupd (key_of (path_join base (schema_name name))) (Some v) g))
    (kupd (key_of (path_join base (schema_name name))) (Some v) (kupd (key_of (path_join base name)) (Some u) g)).
Proof. apply kupd_swap. intros H. exact (res_key_schema (FileStorage 0 base) name (eq_sym H)). Qed.
Lemma multi_files base name (a b c d : list Z) g : valid_name name -> let k n := key_of (path_join base n) in
  osame (kupd (k name) (Some a) (kupd (k (schema_name name)) (Some b) (kupd (k (index_name name)) (Some c) (kupd (k (schema_name (index_name name))) (Some d) g))))
    (put_all [(k (index_name name), c); (k (schema_name (index_name name)), d); (k name, a); (k (schema_name name), b)] g).
Proof.
  intros V k x. assert (N := multi_keys base name V). cbv zeta in N. fold k in N. unfold put_all, kupd. cbn [fold_left fst snd].
  generalize dependent k. intros k N.
  inversion N as [|? ? N1 D1]; subst. inversion D1 as [|? ? N2 D2]; subst. inversion D2 as [|? ? N3 D3]; subst. simpl in N1, N2, N3.
  destruct (key_eqb x (k name)) eqn:E1; [apply key_eqb_eq in E1|];
  destruct (key_eqb x (k (schema_name name))) eqn:E2; try (apply key_eqb_eq in E2; exfalso; intuition congruence); auto;
  destruct (key_eqb x (k (index_name name))) eqn:E3; [apply key_eqb_eq in E3|];
  destruct (key_eqb x (k (schema_name (index_name name)))) eqn:E4; try (apply key_eqb_eq in E4; exfalso; intuition congruence); auto.
Qed.
Section Jobs.
Variables (F B : key -> Prop) (d0 : key -> bool).
Definition job_in (j : job) : Prop :=
  (forall k c, In (k, c) (job_files j) -> F k) /\ B (key_of (job_base j)) /\ (forall p, In p (job_parts j) -> valid_name (pt_name p)) /\ job_fits j.
Lemma jobs_fine rest : forall d kd sn g, osame g (final d) -> (forall j, In j rest -> job_in j) ->
  ok F B d0 (post_of (d ++ rest)) kd sn g (jobs_p rest).
Proof.
  induction rest as [|j rest IH]; intros d kd sn g S H.
  - apply ok_done. left. rewrite app_nil_r. auto.
  - destruct (H j (or_introl eq_refl)) as (Hf & Hb & V & Ty & L).
    assert (E : d ++ j :: rest = (d ++ [j]) ++ rest) by (rewrite <- app_assoc; reflexivity).
    assert (IH' : forall kd h, osame h (put_all (job_files j) g) -> ok F B d0 (post_of (d ++ j :: rest)) kd sn h (jobs_p rest)).
    { intros kd' g' S'. rewrite E. apply IH; [eapply final_next; eauto|]. intros x Hx. apply H. right. auto. }
    clear IH E. cbn [jobs_p]. unfold ptry.
    destruct j as [b e base name schema data|b e base aname aschema|b e base name schema cs|b e lim s base name schema els|b e lim size bits ts base name schema els];
      cbn [job_parts job_base] in *.
    + destruct (valid_parent base name (V _ (or_introl eq_refl))) as (Pk & Ps).
      assert (Hk := Hf _ _ (or_introl eq_refl)). assert (Hs := Hf _ _ (or_intror (or_introl eq_refl))).
      cbn [job_p]. unfold ptry. apply fine_assoc. apply (fine_write_call F B d0 (post_of _) (post_same _) base name Hb Hk Hs Pk Ps).
      intros kd'. cbn [pbind]. apply IH'. intros x. reflexivity.
    + destruct (valid_parent base _ (V _ (or_introl eq_refl))) as (Pk & Ps). cbn [pt_name] in Pk, Ps.
      assert (Hk := Hf _ _ (or_introl eq_refl)). assert (Hs := Hf _ _ (or_intror (or_introl eq_refl))).
      cbn [job_p]. unfold create_archive_p. cbn [pbind]. apply ok_look; [exact Hk| |].
      * cbn [pbind]. apply ok_done. right. exists d, rest, b, e, base, aname, aschema.
        repeat (split; auto). left. reflexivity.
      * unfold ptry. apply fine_assoc. apply (fine_write_call F B d0 (post_of _) (post_same _) base (signature_name aname) Hb Hk Hs Pk Ps).
        intros kd'. cbn [pbind]. apply IH'. intros x. reflexivity.
    + destruct (valid_parent base name (V _ (or_introl eq_refl))) as (Pk & Ps).
      assert (Hk := Hf _ _ (or_introl eq_refl)). assert (Hs := Hf _ _ (or_intror (or_introl eq_refl))).
      cbn [job_p]. unfold ptry. apply fine_assoc. apply (fine_stream_call F B d0 (post_of _) (post_same _) base name); auto.
      { exact (L _ (or_introl eq_refl)). }
      intros kd'. cbn [pbind]. apply IH'. apply schema_first.
    + destruct (valid_parent base name (V _ (or_introl eq_refl))) as (Pk & Ps).
      assert (Hk := Hf _ _ (or_introl eq_refl)). assert (Hs := Hf _ _ (or_intror (or_introl eq_refl))).
      destruct (vector_job b e lim s base name schema els (fun r => match r with Ok _ => jobs_p rest | Er x => Done (Ret (Er x)) end) Ty) as (cs & Ec & Pe).
      eapply ok_peq; [|exact Pe]. assert (Lc := L _ (or_introl eq_refl)). cbn [pt_data] in Lc. rewrite <- Ec in Lc.
      apply (fine_vector F B d0 (post_of _) (post_same _) base name Hb Hk Hs Pk Ps); auto.
      intros kd'. apply IH'. eapply osame_trans; [apply schema_first|]. rewrite Ec. intros x. reflexivity.
    + assert (Vi := V _ (or_introl eq_refl)). assert (Vd := V _ (or_intror (or_introl eq_refl))). cbn [pt_name] in Vi, Vd.
      destruct (valid_parent base name Vd) as (Pk & Ps). destruct (valid_parent base _ Vi) as (Pi & Pis).
      assert (Hi := Hf _ _ (or_introl eq_refl)). assert (His := Hf _ _ (or_intror (or_introl eq_refl))).
      assert (Hk := Hf _ _ (or_intror (or_intror (or_introl eq_refl)))). assert (Hs := Hf _ _ (or_intror (or_intror (or_intror (or_introl eq_refl))))).
      destruct (multi_job b e lim size bits ts base name schema els (fun r => match r with Ok _ => jobs_p rest | Er x => Done (Ret (Er x)) end) Ty) as (cs & Ec1 & Ec2 & Pe).
      eapply ok_peq; [|exact Pe]. assert (L1 := L _ (or_introl eq_refl)). assert (L2 := L _ (or_intror (or_introl eq_refl))).
      cbn [pt_data] in L1, L2. rewrite <- Ec1 in L1. rewrite <- Ec2 in L2.
      apply (fine_multi F B d0 (post_of _) (post_same _) base name Hb Hk Hs Pk Ps Hi His Pi Pis (multi_keys base name Vd)); auto.
      intros kd'. apply IH'. eapply osame_trans; [apply (multi_files base name); exact Vd|]. rewrite Ec1, Ec2. intros x. reflexivity.
Qed.
End Jobs.

(** * The end of a run *)
Lemma job_files_part j k c : In (k, c) (job_files j) -> exists p, In p (job_parts j) /\
  (k = part_key (job_base j) p /\ c = resource_bytes (pt_data p) \/ k = part_schema_key (job_base j) p /\ c = pt_schema p).
Proof.
  unfold job_files. intros H. apply in_flat_map in H. destruct H as (p & Hp & H). exists p. split; auto.
  destruct H as [[= <- <-]|[[= <- <-]|[]]]; auto.
Qed.
Lemma part_in_files j p : In p (job_parts j) ->
  In (part_key (job_base j) p, resource_bytes (pt_data p)) (job_files j) /\ In (part_schema_key (job_base j) p, pt_schema p) (job_files j).
Proof. intros H. split; apply in_flat_map; exists p; simpl; auto. Qed.
Lemma job_has_part j : exists p, In p (job_parts j).
Proof. destruct j; eexists; left; reflexivity. Qed.
Lemma fold_some k (l : list (key * list Z)) : forall acc, (exists c, acc = Some c) \/ In k (map fst l) ->
  exists c, fold_left (fun acc x => if key_eqb k (fst x) then Some (snd x) else acc) l acc = Some c /\
    (acc = Some c \/ In (k, c) l).
Proof.
  induction l as [|[k' c'] l IH]; intros acc H; simpl.
  - destruct H as [(c & ->)|[]]. exists c. auto.
  - destruct (key_eqb k k') eqn:E.
    + destruct (IH (Some c')) as (c & Hc & Hi); [eauto|]. exists c. split; auto. apply key_eqb_eq in E. subst.
      destruct Hi as [[= ->]|Hi]; auto.
    + destruct (IH acc) as (c & Hc & Hi).
      * destruct H as [H|[H|H]]; auto. simpl in H. subst. rewrite key_eqb_refl in E. discriminate.
      * exists c. split; auto. destruct Hi; auto.
Qed.
Lemma fold_not k l : forall acc, ~ In k (map fst l) ->
  fold_left (fun acc (x : key * list Z) => if key_eqb k (fst x) then Some (snd x) else acc) l acc = acc.
Proof.
  induction l as [|[k' c'] l IH]; intros acc H; simpl; auto. simpl in H. rewrite key_eqb_neq by (intros ->; auto).
  apply IH. auto.
Qed.
Lemma final_cases js k :
  (final js k = None /\ forall j c, In j js -> ~ In (k, c) (job_files j)) \/
  exists j c, In j js /\ In (k, c) (job_files j) /\ final js k = Some c.
Proof.
  destruct (in_dec key_eq_dec k (map fst (flat_map job_files js))) as [H|H].
  - right. destruct (fold_some k _ None (or_intror H)) as (c & Hc & [X|Hi]); [discriminate|].
    apply in_flat_map in Hi. destruct Hi as (j & Hj & Hi). exists j, c. auto.
  - left. split; [apply fold_not; auto|]. intros j c Hj Hi. apply H. apply in_map_iff. exists (k, c). split; auto.
    apply in_flat_map. eauto.
Qed.

Lemma Forall2_map_l {X Y Z0} (f : X -> Y) (R : Y -> Z0 -> Prop) l l' : Forall2 (fun x y => R (f x) y) l l' -> Forall2 R (map f l) l'.
Proof. intros H. induction H; simpl; constructor; auto. Qed.

(** Every process ends; every byte of a file was left there by a process that
    wrote the file (or is 0, behind what a process wrote). *)
Lemma processes_end pss w w' os : processes_ok w pss -> pool_run w (map jobs_p pss) w' (map Done os) ->
  exists ds, Forall2 (fun js x => ended w' js (fst x) (snd x)) pss (combine ds os) /\ length ds = length pss /\ length os = length pss /\
  forall k,
    ((forall d, In d ds -> final d k = None) /\ w_files w' k = w_files w k) \/
    exists x cx c, In x ds /\ final x k = Some cx /\ w_files w' k = Some c /\ (length cx <= length c)%nat /\
      forall i, (i < length c)%nat -> exists y cy, In y ds /\ final y k = Some cy /\ (i < length cy)%nat /\
        (nth i c 0 = nth i cy 0 \/ nth i c 0 = 0 /\ (length cx <= i)%nat).
Proof.
  intros (Hok & Hap) R.
  set (F := fun k => exists j c, In j (List.concat pss) /\ In (k, c) (job_files j)).
  set (B := fun b => exists j, In j (List.concat pss) /\ b = key_of (job_base j)).
  set (d0 := fun b => is_dir b w).
  assert (KB : forall k b, F k -> B b -> is_prefix_of k b = false).
  { intros k b (j & c & Hj & Hc) (j' & Hj' & ->). exact (Hap j j' k c Hj Hj' Hc). }
  assert (I0 : disk_inv F B d0 w w).
  { split; [|split; [auto|split; auto]].
    - intros k (j & c & Hj & Hc). destruct (Hok j Hj) as (_ & Hp). destruct (job_files_part _ _ _ Hc) as (p & Ip & X).
      destruct (Hp p Ip) as (_ & ((U1 & _) & (U2 & _))). destruct X as [(-> & _)|(-> & _)]; auto.
    - intros b n (j & Hj & ->) Hd. destruct (Hok j Hj) as (_ & Hp). destruct (job_has_part j) as (p & Ip).
      destruct (Hp p Ip) as (_ & (U1 & _)). apply ready_base in U1.
      destruct U1 as [U1|U1]; [unfold d0 in Hd; congruence|]. apply U1. }
  assert (St : Forall2 (fun (post : list key -> own -> result unit rs_error -> Prop) p =>
      (forall sn g h a, osame g h -> post sn g a -> post sn h a) /\ ok F B d0 post [] [] none p) (map post_of pss) (map jobs_p pss)).
  { assert (X : forall l, (forall js, In js l -> In js pss) -> Forall2 (fun (post : list key -> own -> result unit rs_error -> Prop) p =>
      (forall sn g h a, osame g h -> post sn g a -> post sn h a) /\ ok F B d0 post [] [] none p) (map post_of l) (map jobs_p l)).
    { induction l as [|js l IH]; intros Hl; simpl; constructor; [|apply IH; intros; apply Hl; simpl; auto].
      split; [apply post_same|]. apply (jobs_fine F B d0 js []); [intros ?; reflexivity|].
      intros j Hj. assert (Hc : In j (List.concat pss)) by (apply in_concat; exists js; split; auto; apply Hl; simpl; auto).
      destruct (Hok j Hc) as (L & V). split; [intros k c Hk; exists j, c; auto|]. split; [exists j; auto|]. split; auto.
      intros p Ip. apply V. auto. }
    apply X. auto. }
  destruct (pool_run_inv F B d0 KB w _ _ _ _ _ R _ (start_inv F B d0 w _ _ St I0)) as (ss & H0 & H1 & H2 & H3).
  clearbody F B d0.
  (* the calls that were done *)
  assert (X : exists ds, Forall2 (fun js x => ended w' js (fst x) (snd x)) pss (combine ds os) /\ length os = length pss /\
    Forall2 (fun s d => osame (s_own s) (final d)) ss ds).
  { clear - H0 H1. revert pss os H0 H1. induction ss as [|s ss IH]; intros pss os H0 H1.
    - destruct pss; [|discriminate]. inversion H1 as [E|]. destruct os; [|discriminate]. exists []. split; [constructor|]. split; [reflexivity|constructor].
    - destruct pss as [|js pss]; [discriminate|]. simpl in H0. injection H0 as E0 H0.
      inversion H1 as [|? p ? l' (Hx & Ho & Hd) Hr E1 E2]; subst. destruct os as [|o os]; [discriminate|]. simpl in E2.
      injection E2 as -> ->. destruct (IH _ _ H0 Hr) as (ds & D1 & D2 & D3).
      inversion Ho as [? ? ? a Hp| | | | | |]; subst. rewrite E0 in Hp.
      destruct Hp as [(-> & S)|(d & rest & b & e & base & aname & aschema & X1 & X3 & X4 & X5)].
      + exists (js :: ds). split; [constructor; auto; left; auto|]. split; [simpl; auto|]. constructor; auto.
      + exists (d :: ds). split; [|split; [simpl; auto|constructor; auto]]. constructor; auto. right. simpl.
        exists rest, b, e, base, aname, aschema. subst a. repeat (split; auto). apply Hd. auto. }
  destruct X as (ds & D1 & D2 & D3). exists ds. split; [exact D1|].
  assert (Ls : length ss = length pss) by (rewrite <- (map_length s_post), H0, map_length; auto).
  split; [rewrite <- Ls; clear - D3; induction D3; simpl; auto|]. split; [exact D2|].
  assert (Td : forall s, In s ss -> exists d, In d ds /\ osame (s_own s) (final d)).
  { clear - D3. induction D3 as [|s d ss ds S D IH]; intros x Hx; [destruct Hx|]. destruct Hx as [<-|Hx]; [exists d; simpl; auto|].
    destruct (IH x Hx) as (y & Hy & Sy). exists y. simpl. auto. }
  assert (Fd : forall d, In d ds -> exists s, In s ss /\ osame (s_own s) (final d)).
  { clear - D3. induction D3 as [|s d ss ds S D IH]; intros x Hx; [destruct Hx|]. destruct Hx as [<-|Hx]; [exists s; simpl; auto|].
    destruct (IH x Hx) as (y & Hy & Sy). exists y. simpl. auto. }
  intros k. destruct (H3 k) as [(Ha & Hb)|(x & cx & c & Hx & Hcx & Hc & Hl & Hi)].
  - left. split; auto. intros d Hd. destruct (Fd d Hd) as (s & Hs & E). rewrite <- E. auto.
  - right. destruct (Td x Hx) as (dx & Hdx & Ex). rewrite Ex in Hcx. exists dx, cx, c. repeat (split; auto).
    intros i Li. destruct (Hi i Li) as (y & cy & Hy & Hcy & Ly & V). destruct (Td y Hy) as (dy & Hdy & Ey). rewrite Ey in Hcy.
    exists dy, cy. auto.
Qed.

(** If all calls agree about the contents of the files, these are in them. *)
Lemma processes_agree pss w w' os (C : key -> list Z) : processes_ok w pss ->
  (forall j k c, In j (List.concat pss) -> In (k, c) (job_files j) -> c = C k) ->
  pool_run w (map jobs_p pss) w' (map Done os) ->
  exists ds, Forall2 (fun js x => ended w' js (fst x) (snd x)) pss (combine ds os) /\ length ds = length pss /\ length os = length pss /\
    (forall d j k c, In d ds -> In j d -> In (k, c) (job_files j) -> w_files w' k = Some c) /\
    (forall k, (forall d j c, In d ds -> In j d -> ~ In (k, c) (job_files j)) -> w_files w' k = w_files w k).
Proof.
  intros Ok Ag R. destruct (processes_end _ _ _ _ Ok R) as (ds & D1 & D2 & D3 & D4). exists ds.
  split; [exact D1|]. split; [exact D2|]. split; [exact D3|].
  assert (Sub : forall d j, In d ds -> In j d -> In j (List.concat pss)).
  { clear - D1 D2 D3. revert ds os D1 D2 D3. induction pss as [|js pss IH]; intros ds os D1 D2 D3 d j Hd Hj.
    - destruct ds; [destruct Hd|discriminate].
    - destruct ds as [|d1 ds]; [discriminate|]. destruct os as [|o os]; [discriminate|]. simpl in D1.
      inversion D1 as [|? ? ? ? He Hr]; subst. simpl. apply in_app_iff. destruct Hd as [<-|Hd].
      + left. destruct He as [(E & _)|(rest & b0 & e0 & base0 & an0 & as0 & E & _)]; simpl in E; rewrite E in *; auto.
        apply in_app_iff. auto.
      + right. simpl in D2, D3. eapply IH; eauto. }
  assert (Fc : forall d k c, In d ds -> final d k = Some c -> c = C k).
  { intros d k c Hd Hc. destruct (final_cases d k) as [(E & _)|(j & c' & Hj & Hc' & E)]; [congruence|].
    assert (c' = c) by congruence. subst c'. apply (Ag j k c); [apply (Sub d); auto|auto]. }
  split.
  - intros d j k c Hd Hj Hc. destruct (D4 k) as [(X & _)|(x & cx & c1 & Hx & Hcx & Hw & Hl & Hi)].
    + exfalso. specialize (X d Hd). destruct (final_cases d k) as [(_ & N)|(? & ? & _ & _ & E)]; [|congruence].
      exact (N j c Hj Hc).
    + rewrite Hw. f_equal. assert (Ec : c = C k) by (apply (Ag j k c); [apply (Sub d); auto|auto]). subst c.
      assert (Ex : cx = C k) by (apply (Fc x); auto). subst cx.
      assert (Lc : length c1 = length (C k)).
      { destruct (Nat.eq_dec (length c1) 0) as [Z0|N0]; [lia|].
        destruct (Hi (length c1 - 1)%nat ltac:(lia)) as (y & cy & Hy & Hcy & Ly & _).
        assert (Ey : cy = C k) by (apply (Fc y); auto). subst cy. lia. }
      apply (nth_ext _ _ 0 0); auto. intros i Li. destruct (Hi i Li) as (y & cy & Hy & Hcy & Ly & [V|(_ & V)]); [|lia].
      assert (Ey : cy = C k) by (apply (Fc y); auto). subst cy. exact V.
  - intros k N. destruct (D4 k) as [(_ & E)|(x & cx & c1 & Hx & Hcx & _)]; auto.
    exfalso. destruct (final_cases x k) as [(E & _)|(j & c & Hj & Hc & _)]; [congruence|]. exact (N x j c Hx Hj Hc).
Qed.

Lemma processes_agree_read pss w w' os (C : key -> list Z) : processes_ok w pss ->
  (forall j k c, In j (List.concat pss) -> In (k, c) (job_files j) -> c = C k) ->
  pool_run w (map jobs_p pss) w' (map Done os) ->
  exists ds, Forall2 (fun js x => ended w' js (fst x) (snd x)) pss (combine ds os) /\
    length ds = length pss /\ length os = length pss /\
    (forall d j k c, In d ds -> In j d -> In (k, c) (job_files j) -> w_files w' k = Some c) /\
    (forall d j p b e, In d ds -> In j d -> In p (job_parts j) -> data_ok (pt_data p) -> schema_ok (FileStorage 0 (job_base j)) (pt_schema p) ->
      exists sl, fresh_read b e (job_base j) (pt_name p) (pt_schema p) w' = Ret (Ok sl) /\ sl_bytes sl = pt_data p) /\
    (forall k, (forall d j c, In d ds -> In j d -> ~ In (k, c) (job_files j)) -> w_files w' k = w_files w k).
Proof.
  intros H1 H2 H3. destruct (processes_agree pss w w' os C H1 H2 H3) as (ds & D1 & D2 & D3 & D4 & D5).
  exists ds. repeat (split; [assumption|]). split; [|exact D5].
  intros d j p b e Hd Hj Hp Do (U & _ & _ & Ns).
  destruct (fresh_read_framed b e (job_base j) (pt_name p) w' (pt_data p) (pt_schema p)) as (sl & R & E & _); auto.
  - apply (D4 d j); auto. apply part_in_files. auto.
  - apply (D4 d j); auto. apply part_in_files. auto.
  - exists sl. auto.
Qed.

Lemma creators_end bes base aname aschema w w' os :
  let js := fun be : build * endian => [JCreate (fst be) (snd be) base aname aschema] in
  bes <> [] -> valid_name (signature_name aname) -> unblocked (FileStorage 0 base) (signature_name aname) w ->
  w_files w (res_key (FileStorage 0 base) (signature_name aname)) = None ->
  pool_run w (map (fun be => jobs_p (js be)) bes) w' (map Done os) ->
  In (Ret (Ok tt)) os /\
  (forall o, In o os -> o = Ret (Ok tt) \/ o = Ret (Er (EIo KAlreadyExists (signature_name aname)))) /\
  forall b e, schema_ok (FileStorage 0 base) aschema ->
    exists sl, fresh_read b e base (signature_name aname) aschema w' = Ret (Ok sl) /\ sl_bytes sl = [].
Proof.
  intros js Nb V U Ab R.
  assert (Hc : List.concat (map js bes) = map (fun be => JCreate (fst be) (snd be) base aname aschema) bes).
  { clear. induction bes as [|x l IH]; simpl; auto. rewrite IH. reflexivity. }
  assert (Pok : processes_ok w (map js bes)).
  { unfold processes_ok. rewrite Hc. split.
    - intros j Hj. apply in_map_iff in Hj. destruct Hj as (be & <- & _). split.
      + split; [exact I|]. intros p [<-|[]]. vm_compute. discriminate.
      + intros p [<-|[]]. auto.
    - intros j j' k c Hj Hj' Hc0. apply in_map_iff in Hj, Hj'. destruct Hj as (be & <- & _), Hj' as (be' & <- & _).
      simpl in Hc0. destruct Hc0 as [[= <- _]|[[= <- _]|[]]]; apply is_prefix_longer; unfold part_key, part_schema_key; rewrite res_key_valid; simpl;
        rewrite ?app_length; simpl; try lia; auto. apply valid_schema. auto. }
  set (C := fun k => if key_eqb k (res_key (FileStorage 0 base) (signature_name aname)) then resource_bytes [] else aschema).
  assert (Ag : forall j k c, In j (List.concat (map js bes)) -> In (k, c) (job_files j) -> c = C k).
  { intros j k c Hj Hk. rewrite Hc in Hj. apply in_map_iff in Hj. destruct Hj as (be & <- & _).
    simpl in Hk. destruct Hk as [[= <- <-]|[[= <- <-]|[]]]; unfold C.
    - unfold part_key. simpl. rewrite key_eqb_refl. reflexivity.
    - rewrite key_eqb_neq; [reflexivity|]. apply res_key_schema. }
  rewrite <- map_map in R. destruct (processes_agree_read _ _ _ _ C Pok Ag R) as (ds & D1 & D2 & D3 & D4 & D5 & D6).
  rewrite map_length in D2, D3.
  assert (Out : forall o, In o os -> o = Ret (Ok tt) \/ o = Ret (Er (EIo KAlreadyExists (signature_name aname)))).
  { clear - D1 D2 D3. revert ds os D1 D2 D3. induction bes as [|be bes IH]; intros ds os D1 D2 D3 o Ho.
    - destruct os; [destruct Ho|discriminate].
    - destruct ds as [|d ds]; [discriminate|]. destruct os as [|o1 os]; [discriminate|]. simpl in D1.
      inversion D1 as [|? ? ? ? He Hr]; subst. destruct Ho as [<-|Ho]; [|simpl in D2, D3; eapply IH; eauto].
      destruct He as [(_ & E)|(rest & b & e & base' & aname' & aschema' & E1 & E3 & _)]; [left; exact E|].
      right. simpl in E1, E3. rewrite E3. destruct d as [|j0 d]; simpl in E1.
      + injection E1 as _ _ _ <- _ _. reflexivity.
      + injection E1 as _ E1. destruct d; discriminate. }
  assert (Some1 : exists d, In d ds /\ d <> []).
  { destruct (w_files w' (res_key (FileStorage 0 base) (signature_name aname))) eqn:Ew.
    - destruct (existsb (fun d => match d with [] => false | _ => true end) ds) eqn:X.
      + apply existsb_exists in X. destruct X as (d & Hd & Hn). exists d. split; auto. destruct d; congruence.
      + exfalso. rewrite D6 in Ew; [congruence|]. intros d j c Hd Hj _.
        assert (Y : existsb (fun d : list job => match d with [] => false | _ => true end) ds = true).
        { apply existsb_exists. exists d. split; auto. destruct d; [destruct Hj|reflexivity]. }
        congruence.
    - exfalso. destruct bes as [|be bes]; [congruence|]. destruct ds as [|d ds]; [discriminate|]. destruct os as [|o os]; [discriminate|].
      simpl in D1. inversion D1 as [|? ? ? ? He _]; subst.
      destruct He as [(E & _)|(rest & b & e & base' & aname' & aschema' & E1 & E3 & E4)].
      + simpl in E. subst d. assert (X := D4 _ (JCreate (fst be) (snd be) base aname aschema) _ _ (or_introl eq_refl) (or_introl eq_refl) (or_introl eq_refl)).
        unfold part_key in X. simpl in X. congruence.
      + apply E4. simpl in E1. destruct d as [|j0 d]; simpl in E1; [|injection E1 as _ E1; destruct d; discriminate].
        injection E1 as _ _ <- <- _ _. exact Ew. }
  destruct Some1 as (d & Hd & Nd).
  assert (Hj : exists be, d = js be /\ In (Ret (Ok tt)) os).
  { clear - D1 D2 D3 Hd Nd. revert ds os D1 D2 D3 Hd. induction bes as [|be bes IH]; intros ds os D1 D2 D3 Hd.
    - destruct ds; [destruct Hd|discriminate].
    - destruct ds as [|d1 ds]; [discriminate|]. destruct os as [|o1 os]; [discriminate|]. simpl in D1.
      inversion D1 as [|? ? ? ? He Hr]; subst. destruct Hd as [->|Hd].
      + destruct He as [(E & Eo)|(rest & b & e & base' & aname' & aschema' & E1 & _)]; simpl in *.
        * exists be. auto.
        * destruct d as [|j0 d]; [congruence|]. simpl in E1. injection E1 as _ E1. destruct d; discriminate.
      + simpl in D2, D3. destruct (IH ds os) as (be' & X1 & X2); auto. exists be'. simpl. auto. }
  destruct Hj as (be & Hj & Ho). split; [exact Ho|]. split; [exact Out|].
  intros b e So. subst d. apply (D5 (js be) (JCreate (fst be) (snd be) base aname aschema) (mkPart (signature_name aname) aschema []) b e); simpl; auto.
  split; [constructor|]. vm_compute. discriminate.
Qed.
