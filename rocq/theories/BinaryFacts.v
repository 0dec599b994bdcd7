(** Lemmas about Go.v and Binary.v. *)
From Verif Require Export Binary.

Lemma bytes_ok_app a b : bytes_ok (a ++ b) <-> bytes_ok a /\ bytes_ok b.
Proof. apply Forall_app. Qed.

Lemma bytes_ok_cons x b : bytes_ok (x :: b) <-> byte_ok x /\ bytes_ok b.
Proof. split; [ inversion 1; auto | intros [? ?]; constructor; auto ]. Qed.

Lemma bytes_ok_nil : bytes_ok [].
Proof. constructor. Qed.

Lemma bytes_ok_zeros n : bytes_ok (zeros n).
Proof.
  apply Forall_forall. intros x Hx. apply repeat_spec in Hx. subst. reflexivity.
Qed.

Lemma length_zeros n : length (zeros n) = N.to_nat n.
Proof. apply repeat_length. Qed.

Lemma len_app a b : len (a ++ b) = len a + len b.
Proof. unfold len. rewrite app_length. lia. Qed.

Lemma len_cons x b : len (x :: b) = 1 + len b.
Proof. unfold len. cbn [length]. lia. Qed.

Lemma len_nil : len [] = 0.
Proof. reflexivity. Qed.

Lemma len_nat b n : len b = n -> length b = N.to_nat n.
Proof. unfold len. lia. Qed.

Lemma len_zeros n : len (zeros n) = n.
Proof. unfold len. rewrite length_zeros. lia. Qed.

Lemma len_firstn n b : n <= len b -> len (firstn (N.to_nat n) b) = n.
Proof. unfold len. intros H. rewrite firstn_length_le; lia. Qed.

Lemma len_skipn n b : len (skipn (N.to_nat n) b) = len b - n.
Proof. unfold len. rewrite skipn_length. lia. Qed.

Lemma array_ok_zeros n : array_ok n (zeros n).
Proof. split; [ apply len_zeros | apply bytes_ok_zeros ]. Qed.

Lemma bytes_ok_firstn n b : bytes_ok b -> bytes_ok (firstn n b).
Proof. intros H. rewrite <- (firstn_skipn n b) in H. apply bytes_ok_app in H. tauto. Qed.

Lemma bytes_ok_skipn n b : bytes_ok b -> bytes_ok (skipn n b).
Proof. intros H. rewrite <- (firstn_skipn n b) in H. apply bytes_ok_app in H. tauto. Qed.

Lemma eqbytes_eq a : forall b, eqbytes a b = true <-> a = b.
Proof.
  induction a as [|x a IH]; intros [|y b]; simpl; try (split; congruence).
  rewrite andb_true_iff, N.eqb_eq, IH. split; [ intros [-> ->]; auto | intros E; inversion E; auto ].
Qed.

Lemma eqbytes_refl a : eqbytes a a = true.
Proof. apply eqbytes_eq. reflexivity. Qed.

Lemma u8_lt x : u8 x < 256.
Proof. apply N.mod_lt. discriminate. Qed.

Lemma u8_id x : byte_ok x -> u8 x = x.
Proof. apply N.mod_small. Qed.

Lemma u16_lt x : u16 x < 65536.
Proof. apply N.mod_lt. discriminate. Qed.

Lemma u16_id x : word_ok x -> u16 x = x.
Proof. apply N.mod_small. Qed.

Lemma lor_add_shift lo hi : lo < 256 -> N.lor lo (256 * hi) = 256 * hi + lo.
Proof.
  intros H.
  rewrite N.lor_comm.
  symmetry.
  rewrite N.add_comm, N.lor_comm.
  apply N.bits_inj. intros k.
  assert (Hs : 256 * hi = N.shiftl hi 8) by (rewrite N.shiftl_mul_pow2; simpl (2 ^ 8); lia).
  rewrite Hs.
  rewrite <- N.lxor_lor, N.add_nocarry_lxor; [ reflexivity | | ].
  all: apply N.bits_inj_0; intros j; rewrite N.land_spec.
  all: destruct (N.lt_ge_cases j 8) as [Hj|Hj].
  all: try (rewrite N.shiftl_spec_low by assumption; apply andb_false_r).
  all: rewrite (N.bits_above_log2 lo); [ reflexivity | ].
  all: destruct (N.eq_dec lo 0) as [->|Hn]; [ cbn; lia | ].
  all: assert (N.log2 lo < 8) by (apply N.log2_lt_pow2; simpl (2 ^ 8); lia); lia.
Qed.

Lemma get16_eq hi lo : byte_ok hi -> byte_ok lo -> get16 hi lo = 256 * hi + lo.
Proof.
  unfold byte_ok, get16. intros Hh Hl.
  rewrite N.shiftl_mul_pow2. simpl (2 ^ 8).
  unfold u16. rewrite N.mod_small by lia.
  rewrite (N.mul_comm hi). apply lor_add_shift. assumption.
Qed.

Lemma put16_eq x : word_ok x -> put16 x = [x / 256; x mod 256].
Proof.
  unfold put16, word_ok, u8. intros H.
  rewrite N.shiftr_div_pow2. simpl (2 ^ 8).
  rewrite (N.mod_small (x / 256)); [ reflexivity | ].
  apply N.div_lt_upper_bound; lia.
Qed.

(** Well-formed field values: within the range of the Go field types. *)
Fixpoint vals_ok (l : list fkind) : vals l -> Prop :=
  match l return vals l -> Prop with
  | [] => fun _ => True
  | FU8 :: r => fun v => byte_ok (fst v) /\ vals_ok r (snd v)
  | FU16 :: r => fun v => word_ok (fst v) /\ vals_ok r (snd v)
  | FBytes n :: r => fun v => array_ok n (fst v) /\ vals_ok r (snd v)
  | FBlank n :: r => fun v => vals_ok r v
  end.

Lemma put16_ok x : bytes_ok (put16 x).
Proof. repeat constructor; apply u8_lt. Qed.

Lemma binary_write_length l : forall v, vals_ok l v -> len (binary_write l v) = layout_size l.
Proof.
  induction l as [|[| |n|n] l IH]; intros v H; cbn [binary_write layout_size fsize vals_ok] in *.
  - reflexivity.
  - rewrite len_cons. f_equal. apply IH. tauto.
  - rewrite len_app. rewrite IH by tauto. reflexivity.
  - rewrite len_app. rewrite IH by tauto. f_equal. destruct H as [[? ?] ?]; auto.
  - rewrite len_app, len_zeros. rewrite IH by auto. reflexivity.
Qed.

Lemma binary_write_ok l : forall v, vals_ok l v -> bytes_ok (binary_write l v).
Proof.
  induction l as [|[| |n|n] l IH]; intros v H; cbn [binary_write vals_ok] in *.
  - constructor.
  - apply bytes_ok_cons. split; [ tauto | apply IH; tauto ].
  - apply bytes_ok_app. split; [ apply put16_ok | apply IH; tauto ].
  - apply bytes_ok_app. split; [ destruct H as [[? ?] ?]; auto | apply IH; tauto ].
  - apply bytes_ok_app. split; [ apply bytes_ok_zeros | apply IH; auto ].
Qed.

(** [enc l v b]: b starts with a serialisation of v in layout l (blank fields arbitrary). *)
Fixpoint enc (l : list fkind) : vals l -> list N -> Prop :=
  match l return vals l -> list N -> Prop with
  | [] => fun _ _ => True
  | FU8 :: r => fun v b => exists b', b = fst v :: b' /\ enc r (snd v) b'
  | FU16 :: r => fun v b => exists hi lo b', b = hi :: lo :: b' /\ fst v = 256 * hi + lo /\ enc r (snd v) b'
  | FBytes n :: r => fun v b => exists b', b = fst v ++ b' /\ len (fst v) = n /\ enc r (snd v) b'
  | FBlank n :: r => fun v b => exists f b', b = f ++ b' /\ len f = n /\ enc r v b'
  end.

Lemma decode_enc l : forall b, bytes_ok b -> layout_size l <= len b ->
  enc l (binary_decode l b) b.
Proof.
  induction l as [|[| |n|n] l IH]; intros b Hok Hlen; cbn [binary_decode enc layout_size fsize fst snd] in *.
  - exact I.
  - destruct b as [|x b]; [ rewrite len_nil in Hlen; lia | ]. rewrite len_cons in Hlen.
    exists b. cbn. split; [ reflexivity | ]. apply IH; [ inversion Hok; auto | lia ].
  - destruct b as [|x [|y b]]; [ rewrite len_nil in Hlen; lia | rewrite len_cons, len_nil in Hlen; lia | ].
    rewrite !len_cons in Hlen.
    exists x, y, b. cbn [nth skipn]. inversion Hok; subst. inversion H2; subst.
    rewrite get16_eq by assumption.
    repeat split. apply IH; [ auto | lia ].
  - exists (skipn (N.to_nat n) b). rewrite firstn_skipn, len_firstn by lia.
    repeat split. apply IH; [ apply bytes_ok_skipn; auto | rewrite len_skipn; lia ].
  - exists (firstn (N.to_nat n) b), (skipn (N.to_nat n) b). rewrite firstn_skipn, len_firstn by lia.
    repeat split. apply IH; [ apply bytes_ok_skipn; auto | rewrite len_skipn; lia ].
Qed.

Lemma firstn_app_exact n (a b : list N) : len a = n -> firstn (N.to_nat n) (a ++ b) = a.
Proof.
  intros H. apply len_nat in H. rewrite <- H.
  rewrite firstn_app, Nat.sub_diag, firstn_all. apply app_nil_r.
Qed.

Lemma skipn_app_exact n (a b : list N) : len a = n -> skipn (N.to_nat n) (a ++ b) = b.
Proof.
  intros H. apply len_nat in H. rewrite <- H.
  rewrite skipn_app, Nat.sub_diag, skipn_all. reflexivity.
Qed.

Lemma enc_decode l : forall v b, bytes_ok b -> enc l v b ->
  layout_size l <= len b /\ binary_decode l b = v.
Proof.
  induction l as [|[| |n|n] l IH]; intros v b Hok H; cbn [binary_decode enc layout_size fsize] in *.
  - destruct v. split; [ lia | reflexivity ].
  - destruct H as (b' & -> & H). inversion Hok; subst. destruct (IH _ _ H3 H) as [Hl He].
    rewrite len_cons. split; [ lia | ]. cbn [nth skipn]. rewrite He. destruct v; reflexivity.
  - destruct H as (hi & lo & b' & -> & Hv & H). inversion Hok; subst. inversion H3; subst.
    destruct (IH _ _ H5 H) as [Hl He].
    rewrite !len_cons. split; [ lia | ]. cbn [nth skipn]. rewrite He, get16_eq by assumption.
    destruct v; cbn in *; congruence.
  - destruct H as (b' & -> & Hv & H). apply bytes_ok_app in Hok. destruct Hok as [Hk1 Hk2].
    destruct (IH _ _ Hk2 H) as [Hl He].
    rewrite len_app. split; [ lia | ].
    rewrite firstn_app_exact, skipn_app_exact, He by auto. destruct v; reflexivity.
  - destruct H as (f & b' & -> & Hv & H). apply bytes_ok_app in Hok. destruct Hok as [Hk1 Hk2].
    destruct (IH _ _ Hk2 H) as [Hl He].
    rewrite len_app. split; [ lia | ].
    rewrite skipn_app_exact, He by auto. reflexivity.
Qed.

Lemma binary_read_ok_iff l b v : bytes_ok b -> (binary_read l b = Ok v <-> enc l v b).
Proof.
  intros Hok. unfold binary_read. destruct (N.leb_spec (layout_size l) (len b)) as [Hl|Hl].
  - split.
    + intros [= <-]. apply decode_enc; auto.
    + intros He. destruct (enc_decode _ _ _ Hok He) as [_ ->]. reflexivity.
  - split.
    + destruct b; discriminate.
    + intros He. destruct (enc_decode _ _ _ Hok He). lia.
Qed.

Lemma enc_write l : forall v rest, vals_ok l v -> enc l v (binary_write l v ++ rest).
Proof.
  induction l as [|[| |n|n] l IH]; intros v rest H; cbn [binary_write enc vals_ok] in *.
  - exact I.
  - eexists. split; [ reflexivity | apply IH; tauto ].
  - destruct H as [Hw H]. rewrite put16_eq by assumption. cbn [app].
    eexists _, _, _. split; [ reflexivity | ]. split; [ | apply IH; tauto ].
    rewrite (N.div_mod (fst v) 256) at 1 by discriminate. reflexivity.
  - eexists. rewrite <- app_assoc. split; [ reflexivity | ].
    split; [ destruct H as [[? ?] ?]; auto | apply IH; tauto ].
  - eexists _, _. rewrite <- app_assoc. split; [ reflexivity | ].
    split; [ apply len_zeros | apply IH; auto ].
Qed.

Lemma decode_write l v rest : vals_ok l v -> bytes_ok rest ->
  binary_decode l (binary_write l v ++ rest) = v.
Proof.
  intros H Hr. apply enc_decode; [ | apply enc_write; auto ].
  apply bytes_ok_app. split; [ apply binary_write_ok; auto | auto ].
Qed.

Lemma read_write l v rest : vals_ok l v -> bytes_ok rest ->
  binary_read l (binary_write l v ++ rest) = Ok v.
Proof.
  intros H Hr. apply binary_read_ok_iff; [ | apply enc_write; auto ].
  apply bytes_ok_app. split; [ apply binary_write_ok; auto | auto ].
Qed.

Lemma decode_ok l : forall b, bytes_ok b -> layout_size l <= len b ->
  vals_ok l (binary_decode l b).
Proof.
  induction l as [|[| |n|n] l IH]; intros b Hok Hlen; cbn [binary_decode vals_ok layout_size fsize fst snd] in *.
  - exact I.
  - destruct b as [|x b]; [ rewrite len_nil in Hlen; lia | ]. rewrite len_cons in Hlen.
    inversion Hok; subst. cbn [nth skipn]. split; [ auto | apply IH; [ auto | lia ] ].
  - destruct b as [|x [|y b]]; [ rewrite len_nil in Hlen; lia | rewrite len_cons, len_nil in Hlen; lia | ].
    rewrite !len_cons in Hlen.
    inversion Hok; subst. inversion H2; subst. cbn [nth skipn]. rewrite get16_eq by assumption.
    unfold word_ok, byte_ok in *.
    split; [ lia | apply IH; [ auto | lia ] ].
  - split; [ split; [ apply len_firstn; lia | apply bytes_ok_firstn; auto ] | ].
    apply IH; [ apply bytes_ok_skipn; auto | rewrite len_skipn; lia ].
  - apply IH; [ apply bytes_ok_skipn; auto | rewrite len_skipn; lia ].
Qed.

Lemma read_vals_ok l b v : bytes_ok b -> binary_read l b = Ok v -> vals_ok l v.
Proof.
  unfold binary_read. intros Hok. destruct (N.leb_spec (layout_size l) (len b)) as [Hl|Hl].
  - intros [= <-]. apply decode_ok; auto.
  - destruct b; discriminate.
Qed.

(** A read only depends on the first [layout_size] bytes. *)
Lemma read_app l b v rest : bytes_ok b -> bytes_ok rest ->
  binary_read l b = Ok v -> binary_read l (b ++ rest) = Ok v.
Proof.
  intros Hb Hr H. apply binary_read_ok_iff in H; [ | auto ].
  apply binary_read_ok_iff; [ apply bytes_ok_app; auto | ].
  clear Hb Hr. revert v b H.
  induction l as [|[| |n|n] l IH]; intros v b H; cbn [enc] in *.
  - exact I.
  - destruct H as (b' & -> & H). exists (b' ++ rest). split; [ reflexivity | auto ].
  - destruct H as (hi & lo & b' & -> & Hv & H). exists hi, lo, (b' ++ rest). auto.
  - destruct H as (b' & -> & Hv & H). exists (b' ++ rest). rewrite app_assoc. auto.
  - destruct H as (f & b' & -> & Hv & H). exists f, (b' ++ rest). rewrite app_assoc. auto.
Qed.

Lemma go_index_Ret b i x : nth_error b i = Some x -> go_index b i = Ret x.
Proof. unfold go_index. intros ->. reflexivity. Qed.

Lemma slice_Ret b i j : i <= j -> j <= len b ->
  slice b i j = Ret (firstn (N.to_nat (j - i)) (skipn (N.to_nat i) b)).
Proof.
  intros Hi Hj. unfold slice. apply N.leb_le in Hi. apply N.leb_le in Hj.
  rewrite Hi, Hj. reflexivity.
Qed.
