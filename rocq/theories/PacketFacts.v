(** Proofs relating Packets.v to WireSpec.v. *)
From Verif Require Export BinaryFacts WireSpec.
Open Scope N_scope.

(** * Byte swapping *)

Lemma swap_eq x : word_ok x -> swapUint16 x = x / 256 + 256 * (x mod 256).
Proof.
  unfold word_ok, swapUint16, u16. intros H.
  rewrite N.shiftr_div_pow2, N.shiftl_mul_pow2. change (2 ^ 8) with 256.
  assert (E : (x * 256) mod 65536 = 256 * (x mod 256)).
  { change 65536 with (256 * 256). rewrite N.mul_comm.
    rewrite N.mul_mod_distr_l by discriminate. reflexivity. }
  rewrite E. apply N.mod_small.
  assert (x mod 256 < 256) by (apply N.mod_lt; discriminate).
  assert (x / 256 < 256) by (apply N.div_lt_upper_bound; lia).
  lia.
Qed.

Lemma swap_pair hi lo : byte_ok hi -> byte_ok lo -> swapUint16 (256 * hi + lo) = 256 * lo + hi.
Proof.
  unfold byte_ok. intros Hh Hl. rewrite swap_eq by (unfold word_ok; lia).
  replace ((256 * hi + lo) / 256) with hi.
  2:{ apply (N.div_unique _ 256 hi lo); lia. }
  replace ((256 * hi + lo) mod 256) with lo.
  2:{ apply (N.mod_unique _ 256 hi lo); lia. }
  lia.
Qed.

Lemma word_split x : word_ok x -> exists hi lo, byte_ok hi /\ byte_ok lo /\ x = 256 * hi + lo.
Proof.
  unfold word_ok, byte_ok. intros H. exists (x / 256), (x mod 256). repeat split.
  - apply N.div_lt_upper_bound; lia.
  - apply N.mod_lt. discriminate.
  - apply N.div_mod. discriminate.
Qed.

Lemma swap_swap x : word_ok x -> swapUint16 (swapUint16 x) = x.
Proof.
  intros H. destruct (word_split x H) as (hi & lo & Hh & Hl & ->).
  rewrite !swap_pair by assumption. reflexivity.
Qed.

Lemma swap_word x : word_ok (swapUint16 x).
Proof. apply u16_lt. Qed.

Lemma put16_swap x : word_ok x -> put16 (swapUint16 x) = le16 x.
Proof.
  intros H. rewrite put16_eq by apply swap_word.
  destruct (word_split x H) as (hi & lo & Hh & Hl & ->).
  rewrite swap_pair by assumption. unfold le16, byte_ok in *.
  f_equal; [ | f_equal ].
  - transitivity lo; [ symmetry; apply (N.div_unique _ 256 lo hi); lia | apply (N.mod_unique _ 256 hi lo); lia ].
  - transitivity hi; [ symmetry; apply (N.mod_unique _ 256 lo hi); lia | apply (N.div_unique _ 256 hi lo); lia ].
Qed.

Lemma pair_op hi lo op : byte_ok hi -> byte_ok lo -> 256 * lo + hi = op ->
  hi = op mod 256 /\ lo = op / 256.
Proof.
  unfold byte_ok. intros Hh Hl <-. split.
  - apply (N.mod_unique _ 256 lo hi); lia.
  - apply (N.div_unique _ 256 lo hi); lia.
Qed.

(** * Header *)

Lemma Header_validate_None i o ver h : word_ok o ->
  (Header_validate (mkHeader i o ver) = (h, None) <->
   i = magic /\ h = mkHeader magic (swapUint16 o) ver /\
   (swapUint16 o = 0x2100 \/ 14 <= nth 1 ver 0)).
Proof.
  intros Ho. unfold Header_validate. cbn [H_ID H_OpCode H_Version Header_swapOpCode].
  destruct (eqbytes i ArtNet) eqn:E; cbn [negb].
  - apply eqbytes_eq in E. subst i.
    destruct (N.eqb_spec (swapUint16 o) OpPollReply) as [E|E]; cbn [negb].
    + split.
      * intros [= <-]. auto.
      * intros (_ & -> & _). reflexivity.
    + change (nth 1 version_Bytes 0) with 14.
      destruct (N.ltb_spec (nth 1 ver 0) 14) as [Hv|Hv].
      * split; [ discriminate | ]. intros (_ & _ & [Hx|Hx]); [ exfalso; apply E; exact Hx | lia ].
      * split.
        -- intros [= <-]. auto.
        -- intros (_ & -> & _). reflexivity.
  - split; [ discriminate | ]. intros (-> & _). exfalso.
    assert (eqbytes magic ArtNet = true) by reflexivity. congruence.
Qed.

Lemma length2 {A} (l : list A) : length l = 2%nat -> exists a b, l = [a; b].
Proof. destruct l as [|a [|b [|? ?]]]; try discriminate. intros _. eauto. Qed.

Lemma wire_eq b p b' p' : wire_accepts b p -> p = p' -> b = b' -> wire_accepts b' p'.
Proof. congruence. Qed.

Ltac bok H :=
  repeat match type of H with
  | bytes_ok (_ ++ _) => apply bytes_ok_app in H; let H1 := fresh "Hk" in destruct H as [H1 H]
  | bytes_ok (_ :: _) => apply bytes_ok_cons in H; let H1 := fresh "Hk" in destruct H as [H1 H]
  end.

Ltac destruct_enc H :=
  repeat match type of H with
  | exists _, _ => let x := fresh "e" in destruct H as (x & H)
  | _ /\ _ => let h := fresh "E" in destruct H as (h & H)
  end.

Ltac len2 :=
  repeat match goal with
  | H : len ?l = 1 |- _ => apply len_nat in H; change (N.to_nat 1) with 1%nat in H;
                           destruct l as [|? [|? ?]]; try discriminate H; clear H
  | H : len ?l = 2 |- _ => apply len_nat in H; change (N.to_nat 2) with 2%nat in H;
                           destruct l as [|? [|? [|? ?]]]; try discriminate H; clear H
  end.

(** * Direct UnmarshalBinary of the header-embedding types *)


(** [E : enc layout v b]: split b according to the layout. *)
Ltac open_enc v E :=
  destruct_enc E; clear E; subst; len2.

Ltac unm_forward H b Hb unf :=
  injection H; clear H; intros H; unfold unmarshalPacket in H;
  let v := fresh "v" in let e := fresh "e" in let E := fresh "E" in
  match type of H with context [binary_read ?l b] =>
    destruct (binary_read l b) as [v|e] eqn:E; [ | discriminate H ];
    apply binary_read_ok_iff in E; [ | exact Hb ]
  end;
  unfold unf, Header_layout in v; cbn [app vals] in v;
  repeat match type of v with prod _ _ => let x := fresh "x" in destruct v as [x v] end;
  unfold unf, Header_layout in E; cbn [app enc fst snd] in E;
  open_enc v E; cbn [app] in *; bok Hb.

Ltac hdr_forward H val of_vals set hdr op :=
  unfold val, of_vals, set in H; cbn [hdr] in H;
  let h := fresh "h" in let EV := fresh "EV" in let Eo := fresh "Eo" in
  match type of H with context [Header_validate ?x] =>
    destruct (Header_validate x) as [h [?|]] eqn:EV; [ discriminate H | ]
  end;
  apply Header_validate_None in EV; [ | unfold word_ok, byte_ok in *; lia ];
  destruct EV as (-> & -> & EV); cbn [H_OpCode nth hdr] in H, EV;
  rewrite swap_pair in H, EV by assumption;
  match type of H with context [?x =? op] =>
    destruct (N.eqb_spec x op) as [Eo|Eo]; cbn [negb] in H; [ | discriminate H ]
  end;
  rewrite Eo in *;
  apply pair_op in Eo; [ | assumption | assumption ];
  destruct Eo as [-> ->];
  let c := eval vm_compute in (op mod 256) in change (op mod 256) with c in *;
  let c := eval vm_compute in (op / 256) in change (op / 256) with c in *;
  destruct EV as [EV|EV]; [ discriminate EV | ].

Ltac finish_forward H :=
  injection H; clear H; intros <-;
  eapply wire_eq; [ | reflexivity | ]; [ econstructor | .. ];
  try (match goal with |- @eq (list N) _ _ =>
         cbn [app]; reflexivity end);
  first [ eassumption | reflexivity ].

(** Prove [enc l v b] for b in the literal form of WireSpec. *)
Ltac enc_step :=
  cbn [fst snd app];
  lazymatch goal with
  | |- True => exact I
  | |- exists hi lo b', ?b = hi :: lo :: b' /\ _ =>
      do 3 eexists; split; [ reflexivity | ]; split; [ reflexivity | ]
  | |- exists f b', ?b = f ++ b' /\ len f = ?n /\ _ =>
      lazymatch b with
      | cons _ _ =>
          let k := eval vm_compute in (N.to_nat n) in
          exists (firstn k b), (skipn k b); split; [ reflexivity | ]; split; [ reflexivity | ];
          cbn [skipn]
      | app _ _ => do 2 eexists; split; [ reflexivity | ]; split; [ eassumption | ]
      end
  | |- exists b', ?b = _ /\ len _ = _ /\ _ =>
      eexists; split; [ reflexivity | ]; split; [ first [ reflexivity | eassumption ] | ]
  | |- exists b', ?b = ?x :: b' /\ _ => eexists; split; [ reflexivity | ]
  end.

Ltac hdr_backward H Hb lay vals set val of_vals hdr op :=
  inversion H; subst; clear H;
  unfold unmarshalPacket; f_equal;
  match goal with
  | |- context [binary_read lay ?b] =>
    match goal with |- _ = (?p, None) =>
      let E := fresh "E" in
      let c := eval vm_compute in (op mod 256) in
      let d := eval vm_compute in (op / 256) in
      assert (E : binary_read lay b =
                  Ok (vals (set p (mkHeader magic (256 * c + d) (H_Version (hdr p))))));
      [ apply binary_read_ok_iff; [ exact Hb | ];
        unfold vals, set, lay, Header_layout; cbn [app enc fst snd hdr H_Version H_OpCode H_ID];
        repeat enc_step
      | rewrite E; clear E ]
    end
  end;
  unfold val, vals, of_vals, set; cbn [hdr H_Version H_OpCode H_ID];
  match goal with |- context [Header_validate (mkHeader ?i ?o ?v)] =>
    rewrite (proj2 (Header_validate_None i o v (mkHeader magic op v) eq_refl))
  end; [ reflexivity | split; [ reflexivity | split; [ reflexivity | right; assumption ] ] ].

Lemma Poll_direct p0 b p : bytes_ok b ->
  (Poll_UnmarshalBinary p0 b = Ret (p, None) <-> wire_accepts b (PktPoll p)).
Proof.
  intros Hb. unfold Poll_UnmarshalBinary. split; intros H.
  - unm_forward H b Hb Poll_layout.
    hdr_forward H Poll_validate Poll_of_vals Poll_set_Header Poll_Header OpPoll.
    finish_forward H.
  - hdr_backward H Hb Poll_layout Poll_vals Poll_set_Header Poll_validate Poll_of_vals Poll_Header OpPoll.
Qed.

Lemma DiagData_direct p0 b p : bytes_ok b ->
  (DiagData_UnmarshalBinary p0 b = Ret (p, None) <-> wire_accepts b (PktDiagData p)).
Proof.
  intros Hb. unfold DiagData_UnmarshalBinary. split; intros H.
  - unm_forward H b Hb DiagData_layout.
    hdr_forward H DiagData_validate DiagData_of_vals DiagData_set_Header DiagData_Header OpDiagData.
    finish_forward H.
  - hdr_backward H Hb DiagData_layout DiagData_vals DiagData_set_Header DiagData_validate DiagData_of_vals DiagData_Header OpDiagData.
Qed.

Lemma Nzs_direct p0 b p : bytes_ok b ->
  (Nzs_UnmarshalBinary p0 b = Ret (p, None) <-> wire_accepts b (PktNzs p)).
Proof.
  intros Hb. unfold Nzs_UnmarshalBinary. split; intros H.
  - unm_forward H b Hb Nzs_layout.
    hdr_forward H Nzs_validate Nzs_of_vals Nzs_set_Header Nzs_Header OpNzs.
    finish_forward H.
  - hdr_backward H Hb Nzs_layout Nzs_vals Nzs_set_Header Nzs_validate Nzs_of_vals Nzs_Header OpNzs.
Qed.

Lemma Sync_direct p0 b p : bytes_ok b ->
  (Sync_UnmarshalBinary p0 b = Ret (p, None) <-> wire_accepts b (PktSync p)).
Proof.
  intros Hb. unfold Sync_UnmarshalBinary. split; intros H.
  - unm_forward H b Hb Sync_layout.
    hdr_forward H Sync_validate Sync_of_vals Sync_set_Header Sync_Header OpSync.
    finish_forward H.
  - hdr_backward H Hb Sync_layout Sync_vals Sync_set_Header Sync_validate Sync_of_vals Sync_Header OpSync.
Qed.

Lemma Address_direct p0 b p : bytes_ok b ->
  (Address_UnmarshalBinary p0 b = Ret (p, None) <-> wire_accepts b (PktAddress p)).
Proof.
  intros Hb. unfold Address_UnmarshalBinary. split; intros H.
  - unm_forward H b Hb Address_layout.
    hdr_forward H Address_validate Address_of_vals Address_set_Header Address_Header OpAddress.
    finish_forward H.
  - hdr_backward H Hb Address_layout Address_vals Address_set_Header Address_validate Address_of_vals Address_Header OpAddress.
Qed.

Lemma TimeCode_direct p0 b p : bytes_ok b ->
  (TimeCode_UnmarshalBinary p0 b = Ret (p, None) <-> wire_accepts b (PktTimeCode p)).
Proof.
  intros Hb. unfold TimeCode_UnmarshalBinary. split; intros H.
  - unm_forward H b Hb TimeCode_layout.
    hdr_forward H TimeCode_validate TimeCode_of_vals TimeCode_set_Header TimeCode_Header OpTimeCode.
    finish_forward H.
  - hdr_backward H Hb TimeCode_layout TimeCode_vals TimeCode_set_Header TimeCode_validate TimeCode_of_vals TimeCode_Header OpTimeCode.
Qed.

Lemma Trigger_direct p0 b p : bytes_ok b ->
  (Trigger_UnmarshalBinary p0 b = Ret (p, None) <-> wire_accepts b (PktTrigger p)).
Proof.
  intros Hb. unfold Trigger_UnmarshalBinary. split; intros H.
  - unm_forward H b Hb Trigger_layout.
    hdr_forward H Trigger_validate Trigger_of_vals Trigger_set_Header Trigger_Header OpTrigger.
    finish_forward H.
  - hdr_backward H Hb Trigger_layout Trigger_vals Trigger_set_Header Trigger_validate Trigger_of_vals Trigger_Header OpTrigger.
Qed.

Lemma IPProg_direct p0 b p : bytes_ok b ->
  (IPProg_UnmarshalBinary p0 b = Ret (p, None) <-> wire_accepts b (PktIPProg p)).
Proof.
  intros Hb. unfold IPProg_UnmarshalBinary. split; intros H.
  - unm_forward H b Hb IPProg_layout.
    hdr_forward H IPProg_validate IPProg_of_vals IPProg_set_Header IPProg_Header OpIPProg.
    finish_forward H.
  - hdr_backward H Hb IPProg_layout IPProg_vals IPProg_set_Header IPProg_validate IPProg_of_vals IPProg_Header OpIPProg.
Qed.

Lemma IPProgReply_direct p0 b p : bytes_ok b ->
  (IPProgReply_UnmarshalBinary p0 b = Ret (p, None) <-> wire_accepts b (PktIPProgReply p)).
Proof.
  intros Hb. unfold IPProgReply_UnmarshalBinary. split; intros H.
  - unm_forward H b Hb IPProgReply_layout.
    hdr_forward H IPProgReply_validate IPProgReply_of_vals IPProgReply_set_Header IPProgReply_Header OpIPProgReply.
    finish_forward H.
  - hdr_backward H Hb IPProgReply_layout IPProgReply_vals IPProgReply_set_Header IPProgReply_validate IPProgReply_of_vals IPProgReply_Header OpIPProgReply.
Qed.
