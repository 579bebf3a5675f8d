(** Proofs about Debug texts. *)
From Coq Require Import Ascii Decimal DecimalString DecimalZ DecimalFacts DecimalPos.
From Verif Require Import Base BaseFacts Codec CodecSpec CodecFacts Structs StructsSpec StructsFacts Views ViewsSpec ViewsFacts.
From Verif Require Import Storage Writers WritersSpec MultiViews MultiSpec MultiViewFacts MultiViewUse Archives Text TextSpec.
Local Open Scope string_scope.
Local Open Scope list_scope.
Local Open Scope Z_scope.

Lemma ret_inj {A} (x y : A) : Ret x = Ret y -> x = y.
Proof. congruence. Qed.

(** * Strings *)
Lemma app_s_assoc (x y z : string) : (x +++ y) +++ z = x +++ (y +++ z).
Proof. induction x as [|c x IH]; cbn; [|rewrite IH]; reflexivity. Qed.
Lemma app_s_inv (x k k' : string) : x +++ k = x +++ k' -> k = k'.
Proof. induction x as [|c x IH]; cbn; [auto|]. intros H. injection H as H. auto. Qed.
Lemma app_s_nil x : x +++ "" = x.
Proof. induction x as [|c x IH]; cbn; [|rewrite IH]; reflexivity. Qed.

(** Words end where something else begins. *)
Definition word_char (c : ascii) : bool := ident_char c || Ascii.eqb c "-".
Definition word (s : string) : Prop := s <> "" /\ Forall (fun c => word_char c = true) (list_ascii_of_string s).
Definition stop (k : string) : Prop := match k with EmptyString => False | String c _ => word_char c = false end.
Lemma ident_word s : ident s -> word s.
Proof. intros [N F]. split; [exact N|]. eapply Forall_impl; [|exact F]. intros c H. unfold word_char. rewrite H. reflexivity. Qed.
Lemma words_end s s' k k' : word s -> word s' -> stop k -> stop k' -> s +++ k = s' +++ k' -> s = s' /\ k = k'.
Proof.
  intros [_ W] [_ W'] Sk Sk'. revert s' W'. induction s as [|c s IH]; intros [|c' s'] W' E; cbn in *.
  - auto.
  - rewrite E in Sk. inversion W'; subst. cbn in Sk. congruence.
  - rewrite <- E in Sk'. inversion W; subst. cbn in Sk'. congruence.
  - injection E as -> E. inversion W; inversion W'; subst. destruct (IH ltac:(assumption) s' ltac:(assumption) E) as [-> ->]. auto.
Qed.

(** * Numbers *)
Lemma uint_chars d : Forall (fun c => word_char c = true) (list_ascii_of_string (NilEmpty.string_of_uint d)).
Proof. induction d; cbn; constructor; auto. Qed.
Lemma uint_nil d : NilEmpty.string_of_uint d = "" -> d = Nil.
Proof. destruct d; cbn; [auto|discriminate..]. Qed.
Lemma uint_word d : word (NilZero.string_of_uint d).
Proof.
  unfold NilZero.string_of_uint. destruct (uint_eq_dec d Nil) as [->|N].
  - split; [discriminate|repeat constructor].
  - replace (match d with Nil => "0" | _ => NilEmpty.string_of_uint d end) with (NilEmpty.string_of_uint d) by (destruct d; congruence).
    split; [intros H; apply N, uint_nil, H|apply uint_chars].
Qed.
Lemma dec_word z : word (dec z).
Proof.
  unfold dec. destruct (Z.to_int z) as [d|d]; cbn [NilZero.string_of_int]; [apply uint_word|].
  destruct (uint_word d) as [N F]. split; [discriminate|]. constructor; auto.
Qed.
Lemma to_int_some z : Z.to_int z <> Pos Nil /\ Z.to_int z <> Neg Nil.
Proof.
  destruct z as [|p|p]; cbn; split; try discriminate; intros H; injection H as H; revert H; apply Unsigned.to_uint_nonnil.
Qed.
Lemma dec_inj x y : dec x = dec y -> x = y.
Proof.
  unfold dec. intros H. apply (f_equal NilZero.int_of_string) in H. destruct (to_int_some x), (to_int_some y).
  rewrite !NilZero.isi in H by assumption. injection H as H. apply DecimalZ.to_int_inj in H. exact H.
Qed.

(** * Records *)
Definition declaredb (sh : shape) (v : Z) : bool := match sh with AsEnum l => existsb (Z.eqb v) (map fst l) | _ => true end.
Fixpoint sayableb (ns : list (string * shape)) (r : list Z) : bool :=
  match ns, r with
  | [], [] => true
  | (_, sh) :: ns, v :: r => declaredb sh v && sayableb ns r
  | _, _ => false
  end.
Lemma declared_dec sh v : declaredb sh v = true <-> declared sh v.
Proof.
  destruct sh as [| |l]; cbn [declaredb declared]; try tauto. rewrite existsb_exists. split.
  - intros (x & I & E). apply Z.eqb_eq in E. subst. exact I.
  - intros I. exists v. split; [exact I|apply Z.eqb_refl].
Qed.
Lemma sayable_dec n r : sayableb (n_fields n) r = true <-> sayable n r.
Proof.
  unfold sayable. generalize (n_fields n) as ns. intros ns. revert r. induction ns as [|[x sh] ns IH]; intros [|v r]; cbn [sayableb].
  - split; [constructor|auto].
  - split; [discriminate|intros H; inversion H].
  - split; [discriminate|intros H; inversion H].
  - rewrite andb_true_iff, declared_dec, IH. split; [intros [A B]; constructor; auto|intros H; inversion H; auto].
Qed.
Lemma field_texts_of b e ns : forall fs m r, List.length ns = List.length fs -> get_fields b e fs m = Ret r ->
  field_texts b e fs ns m = if sayableb ns r then Ret (label_texts ns r) else UB.
Proof.
  induction ns as [|[x sh] ns IH]; intros [|f fs] m r L H; try discriminate L; cbn [get_fields field_texts] in *.
  - injection H as <-. reflexivity.
  - destruct (get_field b e f m) as [v| | |] eqn:G; try discriminate H. cbn [obind] in H.
    destruct (get_fields b e fs m) as [r'| | |] eqn:G'; try discriminate H. injection H as <-. injection L as L.
    assert (V : get_value b e sh f m = if declaredb sh v then Ret v else UB).
    { destruct sh as [| |l]; cbn [get_value declaredb]; auto. unfold get_enum. rewrite G. reflexivity. }
    rewrite V. cbn [sayableb label_texts]. destruct (declaredb sh v); cbn [andb obind]; [|reflexivity].
    rewrite (IH fs m r' L G'). destruct (sayableb ns r'); reflexivity.
Qed.
Lemma struct_text_of b e s n m r : List.length (n_fields n) = List.length (s_fields s) -> get_all b e s m = Ret r ->
  struct_text b e s n m = if sayableb (n_fields n) r then Ret (record_text n r) else UB.
Proof.
  intros L G. unfold struct_text. rewrite (field_texts_of b e _ _ _ _ L G). destruct (sayableb (n_fields n) r); reflexivity.
Qed.
Lemma names_length s n : names_ok s n -> List.length (n_fields n) = List.length (s_fields s).
Proof. intros [_ F]. symmetry. eapply Forall2_length; eauto. Qed.
Lemma map_texts {A B C} (g : A -> outcome B) (f : A -> outcome C) (ok : B -> bool) (txt : B -> C) l : forall vs,
  (forall x r, In r vs -> g x = Ret r -> f x = if ok r then Ret (txt r) else UB) ->
  map_outcome g l = Ret vs -> map_outcome f l = if forallb ok vs then Ret (map txt vs) else UB.
Proof.
  induction l as [|x l IH]; intros vs H E; cbn [map_outcome] in *; [injection E as <-; reflexivity|].
  destruct (g x) as [r| | |] eqn:G; try discriminate E. cbn [obind] in E.
  destruct (map_outcome g l) as [rs| | |] eqn:G'; try discriminate E. injection E as <-.
  rewrite (H x r (or_introl eq_refl) G). cbn [forallb]. destruct (ok r); cbn [andb obind]; [|reflexivity].
  rewrite (IH rs (fun x r I => H x r (or_intror I)) eq_refl). destruct (forallb ok rs); reflexivity.
Qed.

(** * Reading texts *)
(** A value is known from its text and so is what follows. *)
Definition decodes {A} (P : A -> Prop) (f : A -> string) : Prop :=
  forall x y k k', P x -> P y -> f x +++ k = f y +++ k' -> x = y /\ k = k'.
Definition value_fit (sh : shape) (v : Z) : Prop :=
  match sh with AsNumber => True | AsBool => v = 0 \/ v = 1 | AsEnum l => In v (map fst l) end.
Lemma enum_text_in l v : In v (map fst l) -> In (v, enum_text l v) l.
Proof.
  intros I. unfold enum_text. destruct (find _ l) as [[x t]|] eqn:F.
  - apply find_some in F as [F E]. cbn in E. apply Z.eqb_eq in E. subst. exact F.
  - apply in_map_iff in I as ([x t] & <- & I). apply (find_none _ _ F) in I. cbn in I. lia.
Qed.
Lemma NoDup_snd {A B} (l : list (A * B)) x y t : NoDup (map snd l) -> In (x, t) l -> In (y, t) l -> x = y.
Proof.
  induction l as [|[a c] l IH]; cbn; [tauto|]. intros N. inversion N as [|? ? N1 N2]; subst. intros [H|H] [H'|H'].
  - congruence.
  - injection H as -> ->. exfalso. apply N1, in_map_iff. exists (y, t). auto.
  - injection H' as -> ->. exfalso. apply N1, in_map_iff. exists (x, t). auto.
  - auto.
Qed.
Lemma value_decodes f sh v v' k k' : shape_ok f sh -> value_fit sh v -> value_fit sh v' -> stop k -> stop k' ->
  value_text sh v +++ k = value_text sh v' +++ k' -> v = v' /\ k = k'.
Proof.
  intros So V V' S S' E.
  assert (W : word (value_text sh v) /\ word (value_text sh v')).
  { destruct sh as [| |l]; cbn [value_text value_fit shape_ok] in *.
    - split; apply dec_word.
    - unfold bool_text. split; [destruct (negb (v =? 0))|destruct (negb (v' =? 0))]; (split; [discriminate|repeat constructor]).
    - destruct So as (_ & _ & Fi). rewrite Forall_forall in Fi. split; apply ident_word.
      + apply (Fi _ (enum_text_in _ _ V)).
      + apply (Fi _ (enum_text_in _ _ V')). }
  destruct W as [W W']. destruct (words_end _ _ _ _ W W' S S' E) as [T ->]. split; [|reflexivity].
  destruct sh as [| |l]; cbn [value_text value_fit shape_ok] in *.
  - apply dec_inj. exact T.
  - unfold bool_text in T. destruct V as [->| ->], V' as [->| ->]; try reflexivity; discriminate T.
  - apply (NoDup_snd l v v' (enum_text l v)); [tauto|apply enum_text_in; exact V|]. rewrite T. apply enum_text_in. exact V'.
Qed.
Definition record_fit (n : names) (r : list Z) : Prop := Forall2 (fun x v => value_fit (snd x) v) (n_fields n) r.
Lemma labels_decode fs ns r r' k k' : Forall2 (fun f x => shape_ok f (snd x)) fs ns ->
  Forall2 (fun (x : string * shape) v => value_fit (snd x) v) ns r -> Forall2 (fun (x : string * shape) v => value_fit (snd x) v) ns r' ->
  stop k -> stop k' ->
  intersperse (label_texts ns r) +++ k = intersperse (label_texts ns r') +++ k' -> r = r' /\ k = k'.
Proof.
  intros F. revert r r'. induction F as [|f [x sh] fs ns S F IH]; intros r r' V V' Sk Sk' E.
  - inversion V; inversion V'; subst. auto.
  - inversion V as [|? v ? vs Hv Hvs]; inversion V' as [|? v' ? vs' Hv' Hvs']; subst. cbn [snd] in *.
    destruct ns as [|n2 ns].
    + inversion Hvs; inversion Hvs'; subst. cbn in E. rewrite !app_s_assoc in E. apply app_s_inv in E. cbn in E. injection E as E.
      destruct (value_decodes f sh v v' k k' S Hv Hv' Sk Sk' E) as [-> ->]. auto.
    + inversion Hvs as [|? v2 ? vs2 Hv2 Hvs2]; inversion Hvs' as [|? v2' ? vs2' Hv2' Hvs2']; subst. destruct n2 as [x2 sh2].
      change (intersperse (label_texts ((x, sh) :: (x2, sh2) :: ns) (v :: v2 :: vs2)))
        with ((x +++ ": " +++ value_text sh v) +++ ", " +++ intersperse (label_texts ((x2, sh2) :: ns) (v2 :: vs2))) in E.
      change (intersperse (label_texts ((x, sh) :: (x2, sh2) :: ns) (v' :: v2' :: vs2')))
        with ((x +++ ": " +++ value_text sh v') +++ ", " +++ intersperse (label_texts ((x2, sh2) :: ns) (v2' :: vs2'))) in E.
      rewrite !app_s_assoc in E. apply app_s_inv in E. cbn [String.append] in E. injection E as E.
      apply (value_decodes f sh v v') in E; auto; [|reflexivity|reflexivity]. destruct E as [-> E]. injection E as E.
      destruct (IH (v2 :: vs2) (v2' :: vs2') Hvs Hvs' Sk Sk' E) as [-> ->]. auto.
Qed.
Lemma record_decodes s n : names_ok s n -> decodes (record_fit n) (record_text n).
Proof.
  intros [_ F] r r' k k' V V' E. unfold record_text in E. rewrite !app_s_assoc in E. apply app_s_inv in E. cbn [String.append] in E.
  injection E as E.
  destruct (labels_decode _ _ r r' (" }" +++ k) (" }" +++ k') F V V' eq_refl eq_refl E) as [-> E']. split; [reflexivity|].
  cbn in E'. injection E' as E'. exact E'.
Qed.
(** Values read from memory are fine. *)
Lemma decode_ok s n m : wf_struct s -> names_ok s n -> sayable n (decode s m) -> record_fit n (decode s m).
Proof.
  intros (_ & Wf & _) [_ F] S. unfold record_fit, sayable, decode in *.
  revert S. generalize dependent (n_fields n). intros ns F. induction F as [|f [x sh] fs ns So F IH]; intros S; cbn [map] in *; [constructor|].
  inversion S; inversion Wf; subst. constructor; [|auto]. cbn [snd] in *. destruct sh as [| |l]; cbn [value_fit shape_ok declared] in *; auto.
  rewrite So. unfold field_value. destruct (field_unsigned m (f_off f) (f_bits f) =? 0); auto.
Qed.
Lemma in_range_fit s n r : names_ok s n -> record_ok s r -> sayable n r -> record_fit n r.
Proof.
  intros [_ F] R S. unfold record_fit, sayable, record_ok in *. revert r R S. induction F as [|f [x sh] fs ns So F IH]; intros r R S.
  - inversion R; subst. constructor.
  - inversion R as [|? v ? vs R1 R2]; subst. inversion S as [|? ? ? ? S1 S2]; subst. constructor; [|auto]. cbn [snd] in *.
    destruct sh as [| |l]; cbn [value_fit shape_ok declared] in *; auto. rewrite So in R1. exact R1.
Qed.
Lemma plain_sayable s n r : names_ok s n -> List.length r = List.length (s_fields s) -> plain n -> sayable n r.
Proof.
  intros N L P. apply names_length in N. unfold sayable, plain in *. rewrite <- N in L. clear N. revert r L.
  induction P as [|[x sh] ns H P IH]; intros [|v r] L; try discriminate L; constructor; auto.
  cbn [snd declared] in *. destruct sh as [| |en]; [exact I|exact I|]. exfalso. exact (H en eq_refl).
Qed.

(** Lists: elements decode and none begins like the end of the list. *)
Definition begins (k : ascii) (s : string) : Prop := match s with EmptyString => False | String c _ => c = k end.
Definition opens (s : string) : Prop := s <> "" /\ ~ begins "]" s.
Lemma concat_decodes {A} (P : A -> Prop) f : decodes P f -> (forall x, P x -> opens (f x)) -> forall l l' k k', Forall P l -> Forall P l' ->
  String.concat ", " (map f l) +++ "]" +++ k = String.concat ", " (map f l') +++ "]" +++ k' -> l = l' /\ k = k'.
Proof.
  intros D O. induction l as [|x l IH]; intros [|y l'] k k' Pl Pl' E.
  - cbn in E. injection E as E. auto.
  - exfalso. inversion Pl' as [|? ? Py _]; subst. destruct (O y Py) as [Ny By]. cbn [map String.concat] in E.
    destruct (f y) as [|c t]; [now apply Ny|]. apply By. cbn [begins]. destruct (map f l'); cbn in E; injection E as <- _; reflexivity.
  - exfalso. inversion Pl as [|? ? Px _]; subst. destruct (O x Px) as [Nx Bx]. cbn [map String.concat] in E.
    destruct (f x) as [|c t]; [now apply Nx|]. apply Bx. cbn [begins]. destruct (map f l); cbn in E; injection E as -> _; reflexivity.
  - inversion Pl as [|? ? Px Pl2]; inversion Pl' as [|? ? Py Pl2']; subst.
    destruct l as [|x2 l], l' as [|y2 l']; cbn [map String.concat] in E; rewrite ?app_s_assoc in E;
      apply (D x y _ _ Px Py) in E; destruct E as [-> E].
    + injection E as E. auto.
    + discriminate E.
    + discriminate E.
    + cbn [String.append] in E. injection E as E. destruct (IH (y2 :: l') k k' Pl2 Pl2' E) as [-> ->]. auto.
Qed.
Lemma list_decodes {A} (P : A -> Prop) f : decodes P f -> (forall x, P x -> opens (f x)) -> decodes (Forall P) (fun l => list_text (map f l)).
Proof.
  intros D O l l' k k' Pl Pl' E. unfold list_text in E. rewrite !app_s_assoc in E. cbn [String.append] in E. injection E as E.
  exact (concat_decodes P f D O l l' k k' Pl Pl' E).
Qed.
Fixpoint tag {A} (i : Z) (l : list A) : list (Z * A) := match l with [] => [] | x :: r => (i, x) :: tag (i + 1) r end.
Lemma tag_inj {A} (l l' : list A) i : tag i l = tag i l' -> l = l'.
Proof. revert l' i. induction l as [|x l IH]; intros [|y l'] i E; try discriminate E; [reflexivity|]. injection E as -> E. f_equal. eauto. Qed.
Lemma tag_forall {A} (P : A -> Prop) l i : Forall P l -> Forall (fun p => P (snd p)) (tag i l).
Proof. intros F. revert i. induction F; constructor; auto. Qed.
Lemma numbered_tag {A} (f : A -> string) l i : numbered i (map f l) = map (fun p => pair_text (dec (fst p)) (f (snd p))) (tag i l).
Proof. revert i. induction l as [|x l IH]; intros i; cbn; [|rewrite IH]; reflexivity. Qed.
Lemma pair_decodes {A} (P : A -> Prop) f : decodes P f ->
  decodes (fun p : Z * A => P (snd p)) (fun p => pair_text (dec (fst p)) (f (snd p))).
Proof.
  intros D [i x] [j y] k k' Px Py E. cbn [fst snd] in *. unfold pair_text in E. rewrite !app_s_assoc in E. cbn [String.append] in E. injection E as E.
  apply words_end in E; [|apply dec_word|apply dec_word|reflexivity|reflexivity]. destruct E as [E E']. apply dec_inj in E as ->.
  injection E' as E'. apply (D x y _ _ Px Py) in E' as [-> E']. injection E' as E'. auto.
Qed.
Lemma numbered_decodes {A} (P : A -> Prop) f : decodes P f -> decodes (Forall P) (fun l => list_text (numbered 0 (map f l))).
Proof.
  intros D l l' k k' Pl Pl' E. rewrite !numbered_tag in E.
  assert (O : forall p : Z * A, P (snd p) -> opens (pair_text (dec (fst p)) (f (snd p)))) by (intros p _; split; [|cbn]; discriminate).
  destruct (list_decodes _ _ (pair_decodes P f D) O _ _ _ _ (tag_forall P l 0 Pl) (tag_forall P l' 0 Pl') E) as [T ->].
  split; [|reflexivity]. eapply tag_inj; eauto.
Qed.

(** Texts of records, items and buckets begin with a name or a bracket. *)
Lemma word_opens s k : word s -> opens (s +++ k).
Proof.
  intros [N F]. destruct s as [|c s]; [now elim N|]. inversion F; subst. split; [discriminate|]. cbn. intros ->. discriminate.
Qed.
Lemma record_opens s n r : names_ok s n -> opens (record_text n r).
Proof. intros [I _]. apply word_opens, ident_word, I. Qed.

(** * Items *)
Definition value_item_text (ns : list names) (x : nat * list Z) : string := record_text (name_nth ns (fst x)) (snd x).
Definition item_fit (ns : list names) (x : nat * list Z) : Prop := (fst x < List.length ns)%nat /\ record_fit (name_nth ns (fst x)) (snd x).
Lemma vnames_nth ts ns i : vnames_ok ts ns -> (i < List.length ts)%nat -> names_ok (v_struct ts i) (name_nth ns i).
Proof.
  intros [F _] H. unfold v_struct, name_nth. revert i H. induction F as [|t n ts ns N F IH]; intros [|i] H; cbn [List.length] in H; try lia.
  - exact N.
  - apply IH. lia.
Qed.
Lemma vnames_length ts ns : vnames_ok ts ns -> List.length ns = List.length ts.
Proof. intros [F _]. symmetry. eapply Forall2_length; eauto. Qed.
Lemma item_decodes ts ns : vnames_ok ts ns -> decodes (item_fit ns) (value_item_text ns).
Proof.
  intros V [i r] [j r'] k k' [Hi R] [Hj R'] E. unfold value_item_text in E. cbn [fst snd] in *.
  pose proof (vnames_length _ _ V) as L. rewrite L in Hi, Hj.
  pose proof (vnames_nth ts ns i V Hi) as Ni. pose proof (vnames_nth ts ns j V Hj) as Nj.
  assert (i = j) as ->.
  { unfold record_text in E. rewrite !app_s_assoc in E. cbn [String.append] in E.
    apply words_end in E as [E _]; [| | |reflexivity|reflexivity]; [|apply ident_word, Ni|apply ident_word, Nj].
    destruct V as [_ D]. rewrite NoDup_nth with (d := n_struct (mkNames "" [])) in D. rewrite map_length in D. apply D; [lia|lia|].
    rewrite !map_nth. exact E. }
  destruct (record_decodes _ _ Ni r r' k k' R R' E) as [-> ->]. auto.
Qed.
Lemma item_text_of b e ts ns i x : vnames_ok ts ns -> (fst x < List.length ts)%nat -> get_item b e ts i = Ret x ->
  item_text b e ts ns i = if sayableb (n_fields (name_nth ns (fst x))) (snd x) then Ret (value_item_text ns x) else UB.
Proof.
  intros V H G. unfold get_item in G. destruct (get_all b e (v_struct ts (fst i)) (snd i)) as [r| | |] eqn:Ga; try discriminate G.
  injection G as <-. cbn [fst snd]. unfold item_text. apply struct_text_of; [|exact Ga]. apply names_length, vnames_nth; auto.
Qed.

(** * Structs *)
Lemma struct_text_spec b e s n m : wf_struct s -> names_ok s n -> bytes_ok m -> s_size s <= len m ->
  (sayable n (decode s m) /\ struct_text b e s n m = Ret (record_text n (decode s m))) \/
  (~ sayable n (decode s m) /\ struct_text b e s n m = UB).
Proof.
  intros W N B L. rewrite (struct_text_of b e s n m (decode s m)); [|apply names_length; exact N|apply get_all_decode; auto].
  destruct (sayableb (n_fields n) (decode s m)) eqn:S.
  - left. split; [apply sayable_dec; exact S|reflexivity].
  - right. split; [|reflexivity]. intros H. apply sayable_dec in H. congruence.
Qed.
Lemma struct_text_eq b e b' e' s n m m' t t' : wf_struct s -> names_ok s n -> bytes_ok m -> s_size s <= len m -> bytes_ok m' -> s_size s <= len m' ->
  struct_text b e s n m = Ret t -> struct_text b' e' s n m' = Ret t' -> (t = t' <-> decode s m = decode s m').
Proof.
  intros W N B L B' L' E E'.
  destruct (struct_text_spec b e s n m W N B L) as [[S T]|[_ T]]; [|congruence].
  destruct (struct_text_spec b' e' s n m' W N B' L') as [[S' T']|[_ T']]; [|congruence].
  assert (t = record_text n (decode s m)) as -> by congruence. assert (t' = record_text n (decode s m')) as -> by congruence.
  split; [|congruence]. intros H.
  apply (record_decodes s n N _ _ "" "" (decode_ok s n m W N S) (decode_ok s n m' W N S')). rewrite H. reflexivity.
Qed.

(** * Views *)
Definition listing (title : string) (n : nat) (l : list string) : string :=
  title +++ " { len: " +++ dec (Z.of_nat n) +++ ", data: " +++ list_text l +++ (if (10 <? n)%nat then "..." else "") +++ " }".
Lemma dots_eq n : dots (Z.of_nat n) = (if (10 <? n)%nat then "..." else "").
Proof. unfold dots, DEBUG_PREVIEW_LEN. destruct (Nat.ltb_spec 10 n), (Z.leb_spec (Z.of_nat n) 10); auto; lia. Qed.
Lemma forallb_Forall {A} (f : A -> bool) (P : A -> Prop) l : (forall x, f x = true <-> P x) -> (forallb f l = true <-> Forall P l).
Proof. intros H. rewrite forallb_forall, Forall_forall. split; intros G x I; apply H; auto. Qed.
Lemma view_text_spec b e title s n v : wf_struct s -> names_ok s n -> slice_ok v -> let l := records s (sl_bytes v) in
  (Forall (sayable n) (firstn 10 l) /\ view_text b e title s n v = Ret (listing title (List.length l) (map (record_text n) (firstn 10 l)))) \/
  (~ Forall (sayable n) (firstn 10 l) /\ view_text b e title s n v = UB).
Proof.
  intros W N V l. destruct (av_take_spec b e s (Z.to_nat DEBUG_PREVIEW_LEN) v W V) as (ms & Ht & Hm).
  unfold view_text, av_iter_len. rewrite Ht. cbn [obind]. rewrite records_nil_iff by (auto; apply W). fold l in Hm |- *.
  change (Z.to_nat DEBUG_PREVIEW_LEN) with 10%nat in Hm.
  rewrite (map_texts (get_all b e s) (struct_text b e s n) (sayableb (n_fields n)) (record_text n) ms (firstn 10 l)); [|intros x r _ G; apply struct_text_of; auto; apply names_length; exact N|exact Hm].
  destruct (forallb (sayableb (n_fields n)) (firstn 10 l)) eqn:S.
  - left. split; [apply (forallb_Forall _ _ _ (sayable_dec n)); exact S|]. cbn [obind]. rewrite dots_eq. reflexivity.
  - right. split; [|reflexivity]. intros H. apply (forallb_Forall _ _ _ (sayable_dec n)) in H. congruence.
Qed.
Lemma records_fit s n v : wf_struct s -> names_ok s n -> Forall (sayable n) (firstn 10 (records s (sl_bytes v))) ->
  Forall (record_fit n) (firstn 10 (records s (sl_bytes v))).
Proof.
  intros W N. rewrite !Forall_forall. intros H r I. specialize (H r I).
  assert (I' : In r (records s (sl_bytes v))) by (rewrite <- (firstn_skipn 10); apply in_or_app; auto).
  unfold records in I'. apply in_map_iff in I' as (i & <- & _). apply decode_ok; auto.
Qed.
Lemma listing_inj {A} (Q : A -> Prop) g title n n' q q' : decodes Q (fun x => list_text (g x)) -> Q q -> Q q' ->
  listing title n (g q) = listing title n' (g q') -> n = n' /\ q = q'.
Proof.
  intros D Q1 Q2 E. unfold listing in E. remember (fun x => list_text (g x)) as h eqn:Eh.
  change (list_text (g q)) with ((fun x => list_text (g x)) q) in E. change (list_text (g q')) with ((fun x => list_text (g x)) q') in E.
  rewrite <- Eh in E. apply app_s_inv in E. cbn [String.append] in E. injection E as E.
  apply words_end in E; [|apply dec_word|apply dec_word|reflexivity|reflexivity]. destruct E as [E E']. apply dec_inj in E.
  injection E' as E'. destruct (D _ _ _ _ Q1 Q2 E') as [-> _]. split; [lia|reflexivity].
Qed.
Lemma view_text_eq b e b' e' title s n v v' t t' : wf_struct s -> names_ok s n -> slice_ok v -> slice_ok v' ->
  view_text b e title s n v = Ret t -> view_text b' e' title s n v' = Ret t' ->
  let l := records s (sl_bytes v) in let l' := records s (sl_bytes v') in
  (t = t' <-> List.length l = List.length l' /\ firstn 10 l = firstn 10 l').
Proof.
  intros W N V V' E E' l l'.
  destruct (view_text_spec b e title s n v W N V) as [[S T]|[_ T]]; [|congruence]. fold l in S, T.
  destruct (view_text_spec b' e' title s n v' W N V') as [[S' T']|[_ T']]; [|congruence]. fold l' in S', T'.
  rewrite E in T. rewrite E' in T'. apply ret_inj in T as ->. apply ret_inj in T' as ->. split.
  - apply (listing_inj (Forall (record_fit n)) (map (record_text n))); [|apply records_fit; auto|apply records_fit; auto].
    apply list_decodes; [apply (record_decodes s n N)|]. intros x _. eapply record_opens; eauto.
  - intros [-> ->]. reflexivity.
Qed.

(** * Multi views *)
Definition bucket_text (ns : list names) (l : list (nat * list Z)) : string := list_text (map (value_item_text ns) l).
Definition item_sayableb (ns : list names) (x : nat * list Z) : bool := sayableb (n_fields (name_nth ns (fst x))) (snd x).
Lemma item_sayable_dec ns x : item_sayableb ns x = true <-> item_sayable ns x.
Proof. apply sayable_dec. Qed.
Lemma bucket_values ts bytes l x : bucket_of ts bytes l -> In x l -> value_ok ts x.
Proof.
  intros (ms & _ & F). revert x. induction F as [|m y ms l H F IH]; intros x; [intros []|]. intros [<-|I]; [apply H|auto].
Qed.
Lemma mav_shows_values ts size bits v l x y : mav_shows ts size bits v l -> In x l -> In y x -> value_ok ts y.
Proof.
  intros (_ & _ & F). revert x y. induction F as [|p z ps l (_ & _ & H) F IH]; intros x y; [intros []|]. intros [<-|I] J; [|eauto].
  eapply bucket_values; eauto.
Qed.
Lemma item_fits ts ns x : vnames_ok ts ns -> value_ok ts x -> item_sayable ns x -> item_fit ns x.
Proof.
  intros V [L R] S. split; [rewrite (vnames_length _ _ V); exact L|]. eapply in_range_fit; [eapply vnames_nth; eauto|exact R|exact S].
Qed.
Lemma item_iter_text_spec b e ts ns d l : wf_vdesc ts -> vnames_ok ts ns -> slice_ok d -> bucket_of ts (sl_bytes d) l ->
  (Forall (item_sayable ns) l /\ item_iter_text b e ts ns d = Ret ("MultiArrayViewItemIter { data: " +++ bucket_text ns l +++ " }")) \/
  (~ Forall (item_sayable ns) l /\ item_iter_text b e ts ns d = UB).
Proof.
  intros W V D B. unfold value in *. unfold item_iter_text. destruct (item_collect_ok b e ts d l W D B) as (is & -> & _ & G). cbn [obind].
  rewrite (map_texts (get_item b e ts) _ (item_sayableb ns) (value_item_text ns) is l); [| |exact G].
  2:{ intros x r I Gx. apply item_text_of; auto. apply (bucket_values ts _ l r B I). }
  destruct (@forallb (nat * list Z) (item_sayableb ns) l) eqn:S.
  - left. split; [apply (forallb_Forall _ _ _ (item_sayable_dec ns)); exact S|reflexivity].
  - right. split; [|reflexivity]. intros H. apply (forallb_Forall _ _ _ (item_sayable_dec ns)) in H. exact (eq_true_false_abs _ H S).
Qed.
Lemma item_opens ts ns x : vnames_ok ts ns -> item_fit ns x -> opens (value_item_text ns x).
Proof. intros V [L _]. rewrite (vnames_length _ _ V) in L. eapply record_opens. eapply vnames_nth; eauto. Qed.
Lemma bucket_decodes ts ns : vnames_ok ts ns -> decodes (Forall (item_fit ns)) (bucket_text ns).
Proof. intros V. apply list_decodes; [eapply item_decodes; eauto|]. intros x. eapply item_opens; eauto. Qed.
Lemma bucket_fits ts ns bytes l : vnames_ok ts ns -> bucket_of ts bytes l -> Forall (item_sayable ns) l -> Forall (item_fit ns) l.
Proof. intros V B. rewrite !Forall_forall. intros H x I. eapply item_fits; eauto. eapply bucket_values; eauto. Qed.
Lemma item_iter_text_eq b e b' e' ts ns d d' l l' t t' : wf_vdesc ts -> vnames_ok ts ns ->
  slice_ok d -> slice_ok d' -> bucket_of ts (sl_bytes d) l -> bucket_of ts (sl_bytes d') l' ->
  item_iter_text b e ts ns d = Ret t -> item_iter_text b' e' ts ns d' = Ret t' -> (t = t' <-> l = l').
Proof.
  intros W V D D' B B' E E'.
  destruct (item_iter_text_spec b e ts ns d l W V D B) as [[S T]|[_ T]]; [|congruence].
  destruct (item_iter_text_spec b' e' ts ns d' l' W V D' B') as [[S' T']|[_ T']]; [|congruence].
  rewrite E in T. rewrite E' in T'. apply ret_inj in T as ->. apply ret_inj in T' as ->. split; [|congruence]. intros H. apply app_s_inv in H.
  eapply (bucket_decodes ts ns V); [| |exact H]; eapply bucket_fits; eauto.
Qed.
Lemma multi_text_spec b e title size bits ts ns v l : wf_struct (index_struct size bits) -> wf_vdesc ts -> vnames_ok ts ns -> mav_shows ts size bits v l ->
  (Forall (Forall (item_sayable ns)) (firstn 10 l) /\
   multi_text b e title size bits ts ns v = Ret (listing title (List.length l) (numbered 0 (map (bucket_text ns) (firstn 10 l))))) \/
  (~ Forall (Forall (item_sayable ns)) (firstn 10 l) /\ multi_text b e title size bits ts ns v = UB).
Proof.
  intros Wi W V H. unfold value in *. unfold multi_text, mav_iter_len. rewrite (mav_shows_len b size bits Wi ts v l H). cbn [obind].
  destruct (mav_shows_take b e size bits Wi ts (Z.to_nat DEBUG_PREVIEW_LEN) W v l H) as (ls & -> & G). cbn [obind].
  change (Z.to_nat DEBUG_PREVIEW_LEN) with 10%nat in G.
  rewrite (map_texts (map_outcome (get_item b e ts)) _ (forallb (item_sayableb ns)) (map (value_item_text ns)) ls (firstn 10 l)); [| |exact G].
  2:{ intros x r I Gx. apply (map_texts (get_item b e ts)); [|exact Gx]. intros y z J Gy. apply item_text_of; auto.
      apply (mav_shows_values ts size bits v l r z H); auto. rewrite <- (firstn_skipn 10). apply in_or_app. auto. }
  assert (Dc : forallb (forallb (item_sayableb ns)) (firstn 10 l) = true <-> Forall (Forall (item_sayable ns)) (firstn 10 l)).
  { apply forallb_Forall. intros x. apply forallb_Forall. apply item_sayable_dec. }
  destruct (@forallb (list (nat * list Z)) (@forallb (nat * list Z) (item_sayableb ns)) (@firstn (list (nat * list Z)) 10 l)) eqn:S.
  - left. split; [apply Dc; reflexivity|]. cbn [obind]. rewrite dots_eq.
    exact (f_equal (fun z => Ret (listing title (List.length l) (numbered 0 z))) (map_map (map (value_item_text ns)) list_text (firstn 10 l))).
  - right. split; [|reflexivity]. intros X. apply Dc in X. discriminate X.
Qed.
Lemma multi_text_eq b e b' e' title size bits ts ns v v' l l' t t' : wf_struct (index_struct size bits) -> wf_vdesc ts -> vnames_ok ts ns ->
  mav_shows ts size bits v l -> mav_shows ts size bits v' l' ->
  multi_text b e title size bits ts ns v = Ret t -> multi_text b' e' title size bits ts ns v' = Ret t' ->
  (t = t' <-> List.length l = List.length l' /\ firstn 10 l = firstn 10 l').
Proof.
  intros Wi W V H H' E E'.
  destruct (multi_text_spec b e title size bits ts ns v l Wi W V H) as [[S T]|[_ T]]; [|congruence].
  destruct (multi_text_spec b' e' title size bits ts ns v' l' Wi W V H') as [[S' T']|[_ T']]; [|congruence].
  rewrite E in T. rewrite E' in T'. apply ret_inj in T as ->. apply ret_inj in T' as ->. split.
  - assert (F : forall v l, mav_shows ts size bits v l -> Forall (Forall (item_sayable ns)) (firstn 10 l) -> Forall (Forall (item_fit ns)) (firstn 10 l)).
    { clear - V. intros v l H. rewrite !Forall_forall. intros F x I. specialize (F x I). rewrite Forall_forall in *. intros y J.
      apply (item_fits ts); auto. apply (mav_shows_values ts size bits v l x y H); auto. rewrite <- (firstn_skipn 10). apply in_or_app. auto. }
    apply (listing_inj (Forall (Forall (item_fit ns))) (fun x => numbered 0 (map (bucket_text ns) x))); [|eapply F; eauto|eapply F; eauto].
    apply numbered_decodes. apply (bucket_decodes ts ns V).
  - intros [-> ->]. reflexivity.
Qed.
