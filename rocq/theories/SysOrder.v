(** FIFO order within one run: datagrams from the socket to the parser, payloads from the queue to the
    socket. *)
From Verif Require Import SysFacts SysLaws SysRun.
From stdpp Require Import base list gmap.
Open Scope N_scope.

(** * Receiving *)
(** The foreign datagrams read from the socket (as far as the buffer reaches), those parsed, and those
    discarded because the node was stopped meanwhile. *)
Definition received (E : env) (tr : list obs) : list (list N) :=
  collect (fun o => match o with ORecv from d => if foreign E from then [truncated d] else [] | _ => [] end) tr.
Definition parsed (tr : list obs) : list (list N) := collect (fun o => match o with OParse d => [d] | _ => [] end) tr.
Definition discarded (E : env) (tr : list obs) : list (list N) :=
  collect (fun o => match o with ODiscard from d => if foreign E from then [d] else [] | _ => [] end) tr.
(** What the reader, the queue and recvLoop hold. *)
Definition rd_view (E : env) (t : thread) : list (list N) :=
  match t with
  | RD_got b (Some (from, num)) => if foreign E from then [firstn num b] else []
  | RD_push _ d | RD_pushing _ d _ => [d]
  | _ => []
  end.
Definition rl_view (t : thread) : list (list N) := match t with RL_parse d => [d] | _ => [] end.
Definition recvq (g : nat) (s : shared) : list (list N) := match S_gens s !! g with Some ch => Q_recv ch | None => [] end.

Lemma recvq_upd s g ch : (g < length (S_gens s))%nat -> recvq g (upd_gen s g ch) = Q_recv ch.
Proof. intros H. unfold recvq, upd_gen. cbn. rewrite list_lookup_insert by exact H. reflexivity. Qed.
Lemma recvq_same s g g0 ch ch' : S_gens s !! g = Some ch -> Q_recv ch' = Q_recv ch -> recvq g0 (upd_gen s g ch') = recvq g0 s.
Proof.
  intros H E. destruct (Nat.eq_dec g g0) as [->|Hn].
  - rewrite recvq_upd by (eapply lookup_lt_Some; exact H). unfold recvq. rewrite H. exact E.
  - unfold recvq, upd_gen. cbn. rewrite list_lookup_insert_ne by exact Hn. reflexivity.
Qed.
Lemma recvq_start s g b : (length (S_gens s) <= S g)%nat -> recvq g (with_shutdown (with_gens s (S_gens s ++ [new_chans])) b) = recvq g s.
Proof.
  intros H. unfold recvq. cbn. destruct (Nat.eq_dec (length (S_gens s)) g) as [<-|Hn].
  - rewrite list_lookup_middle by reflexivity. rewrite lookup_ge_None_2 by lia. reflexivity.
  - destruct (Nat.lt_ge_cases g (length (S_gens s))).
    + rewrite lookup_app_l by lia. reflexivity.
    + rewrite !lookup_ge_None_2; [ reflexivity | lia | rewrite app_length; cbn; lia ].
Qed.
Lemma truncate_read (b data : list N) : array_ok read_buffer b ->
  firstn (Nat.min (length data) (length b)) (firstn (Nat.min (length data) (length b)) data ++ skipn (Nat.min (length data) (length b)) b) = truncated data.
Proof.
  intros [Hb _]. unfold truncated. unfold len, read_buffer in Hb. assert (Hb' : length b = 4096%nat) by lia. rewrite Hb'.
  rewrite firstn_app, firstn_firstn, Nat.min_id, firstn_length.
  destruct (Nat.le_gt_cases (length data) 4096).
  - rewrite Nat.min_l by lia. rewrite Nat.min_id, Nat.sub_diag. cbn [firstn]. rewrite app_nil_r. rewrite !firstn_all2 by lia. reflexivity.
  - rewrite Nat.min_r by lia. rewrite Nat.min_l by lia. rewrite Nat.sub_diag. cbn [firstn]. rewrite app_nil_r. reflexivity.
Qed.

Lemma recv_step E g0 c0 k0 s t c s' t' sp o : bounded g0 c0 k0 s -> bounded g0 c0 k0 s' -> placed E g0 c0 k0 s t -> t_ok E t ->
  tstep E s t c = Next s' t' sp o ->
  collect (rd_view E) sp = [] /\ collect rl_view sp = [] /\
  ((* nothing *) rd_view E t' = rd_view E t /\ rl_view t' = rl_view t /\ recvq g0 s' = recvq g0 s /\ received E o = [] /\ parsed o = [] /\ discarded E o = [] \/
   (* read *) is_rd t = 1%nat /\ rd_view E t = [] /\ received E o = rd_view E t' /\ rl_view t' = rl_view t /\ recvq g0 s' = recvq g0 s /\ parsed o = [] /\ discarded E o = [] \/
   (* discard *) is_rd t = 1%nat /\ discarded E o = rd_view E t /\ rd_view E t' = [] /\ rl_view t' = rl_view t /\ recvq g0 s' = recvq g0 s /\ received E o = [] /\ parsed o = [] \/
   (* push *) is_rd t = 1%nat /\ rd_view E t' = [] /\ recvq g0 s' = recvq g0 s ++ rd_view E t /\ rl_view t' = rl_view t /\ received E o = [] /\ parsed o = [] /\ discarded E o = [] \/
   (* pop *) is_rl t = 1%nat /\ rl_view t = [] /\ recvq g0 s = rl_view t' ++ recvq g0 s' /\ rd_view E t' = rd_view E t /\ received E o = [] /\ parsed o = [] /\ discarded E o = [] \/
   (* parse *) is_rl t = 1%nat /\ rl_view t' = [] /\ parsed o = rl_view t /\ rd_view E t' = rd_view E t /\ recvq g0 s' = recvq g0 s /\ received E o = [] /\ discarded E o = []).
Proof.
  intros B B' Hp Ht H. unfold bounded in *.
  tcases H; qfacts; cbn [placed t_ok] in *; split; try reflexivity; split; try reflexivity.
  all: try (left; repeat split; first [ reflexivity | eapply recvq_same; [ eassumption | reflexivity ] | apply recvq_start; lia ]; fail).
  - (* pop *) do 4 right. left. destruct Hp as (_ & _ & ->). repeat split. rewrite recvq_upd by (eapply lookup_lt_Some; eassumption). unfold recvq.
    match goal with G : S_gens s !! _ = _ |- _ => rewrite G end. assumption.
  - (* parse *) do 5 right. repeat split.
  - do 5 right. repeat split.
  - (* read *) right. left. repeat split. unfold received. cbn [collect map concat app rd_view]. rewrite truncate_read by exact Ht.
    destruct (foreign E from); reflexivity.
  - (* discard *) do 2 right. left. repeat split. unfold discarded. cbn [collect map concat app rd_view]. rewrite app_nil_r. reflexivity.
  - (* own *) left. repeat split. cbn [rd_view]. unfold foreign. match goal with G : IP_Equal _ _ = _ |- _ => rewrite G end. reflexivity.
  - left. repeat split. cbn [rd_view]. unfold foreign. match goal with G : IP_Equal _ _ = _ |- _ => rewrite G end. cbn [negb].
    rewrite go_copy_firstn by tauto. reflexivity.
  - (* push *) do 3 right. left. destruct Hp as (_ & _ & ->). repeat split. rewrite recvq_upd by (eapply lookup_lt_Some; eassumption). unfold recvq.
    match goal with G : S_gens s !! _ = _ |- _ => rewrite G end. reflexivity.
Qed.
Lemma rd_view_0 E t : is_rd t = 0%nat -> rd_view E t = [].
Proof. destruct t; cbn; intros; try reflexivity; discriminate. Qed.
Lemma rl_view_0 t : is_rl t = 0%nat -> rl_view t = [].
Proof. destruct t; cbn; intros; try reflexivity; discriminate. Qed.
Lemma rd_not_rl t : is_rd t = 1%nat -> is_rl t = 0%nat.
Proof. destruct t; cbn; intros; try reflexivity; discriminate. Qed.
Lemma discarded_0 E tr : sum_list_with discards tr = 0%nat -> discarded E tr = [].
Proof. apply collect_0. intros o. destruct o; cbn; intros; try reflexivity; discriminate. Qed.
Lemma collect_quiescent {B} (f : thread -> list B) y : f TDone = [] -> quiescent y -> collect f (Y_threads y) = [].
Proof.
  intros Hf H. unfold quiescent in H. induction H as [|t l -> _ IH]; [ reflexivity | ]. rewrite collect_cons, Hf, IH. reflexivity.
Qed.

Theorem recv_order E ls0 y0 tr0 ls y tr : runs E ls0 y0 tr0 -> quiescent y0 -> steps E y0 ls y tr -> (starts ls <= 1)%nat ->
  received E tr = parsed tr ++ collect rl_view (Y_threads y) ++ recvq (length (S_gens (Y_sh y0))) (Y_sh y) ++
                  collect (rd_view E) (Y_threads y) ++ discarded E tr.
Proof.
  intros R0 Q H. induction H as [|y0 ls y1 tr1 l y2 o Hs IH Hl He]; intros Hn.
  - rewrite !(collect_quiescent _ y) by (reflexivity || exact Q). unfold recvq. rewrite lookup_ge_None_2 by lia. reflexivity.
  - assert (Hn1 : (starts ls <= 1)%nat) by (unfold starts in *; rewrite sum_list_with_app in Hn; lia).
    specialize (IH R0 Q Hn1). pose proof (single_run E _ _ _ _ Q Hs Hn1) as S1.
    pose proof (single_run E _ _ _ _ Q (steps_snoc E y0 ls y1 tr1 l y2 o Hs Hl He) Hn) as S2.
    pose proof (steps_ok E _ _ _ _ Hs tr0 (runs_ok _ _ _ _ R0)) as OK.
    unfold received, parsed, discarded in *. rewrite !collect_app. rewrite IH. clear IH.
    fold (received E o) (parsed o) (discarded E o) (parsed tr1) (discarded E tr1). apply exec_cases in He.
    destruct He as [(i & c & t & s & t' & sp & -> & Et & Es & ->)|[(t & -> & -> & Hk)|(mm & op & f & -> & -> & _)]]; cbn [Y_sh Y_threads] in *.
    + destruct (Forall_lookup_1 _ _ _ _ (sys_threads _ _ _ OK) Et) as [T1 _].
      pose proof (Forall_lookup_1 _ _ _ _ (sg_placed _ _ _ _ _ S1) Et) as T2. pose proof (sg_bounded _ _ _ _ _ S2) as B2. cbn [Y_sh] in B2.
      destruct (recv_step E _ _ _ _ _ _ _ _ _ _ (sg_bounded _ _ _ _ _ S1) B2 T2 T1 Es) as (V1 & V2 & V).
      rewrite !collect_app, V1, V2, !app_nil_r.
      pose proof (sg_rd _ _ _ _ _ S1) as Rd. pose proof (sg_rl _ _ _ _ _ S1) as Rl.
      assert (D : is_rd t = 1%nat -> discarded E tr1 = []).
      { intros Hr. apply discarded_0. pose proof (sum_ge is_rd _ _ _ Et). lia. }
      assert (CRd : is_rd t = 1%nat -> collect (rd_view E) (Y_threads y1) = rd_view E t /\ collect (rd_view E) (<[i := t']> (Y_threads y1)) = rd_view E t').
      { intros Hr. destruct (collect_one is_rd (rd_view E) _ (rd_view_0 E) i t Et ltac:(lia) Hr) as [C1 C2]. auto. }
      assert (CRl : is_rl t = 1%nat -> collect rl_view (Y_threads y1) = rl_view t /\ collect rl_view (<[i := t']> (Y_threads y1)) = rl_view t').
      { intros Hr. destruct (collect_one is_rl rl_view _ rl_view_0 i t Et ltac:(lia) Hr) as [C1 C2]. auto. }
      assert (SRd : rd_view E t' = rd_view E t -> collect (rd_view E) (<[i := t']> (Y_threads y1)) = collect (rd_view E) (Y_threads y1))
        by (intros Hv; eapply collect_same; eassumption).
      assert (SRl : rl_view t' = rl_view t -> collect rl_view (<[i := t']> (Y_threads y1)) = collect rl_view (Y_threads y1))
        by (intros Hv; eapply collect_same; eassumption).
      destruct V as [(A1 & A2 & A3 & A4 & A5 & A6)|[(A1 & A2 & A3 & A4 & A5 & A6 & A7)|[(A1 & A2 & A3 & A4 & A5 & A6 & A7)|
        [(A1 & A2 & A3 & A4 & A5 & A6 & A7)|[(A1 & A2 & A3 & A4 & A5 & A6 & A7)|(A1 & A2 & A3 & A4 & A5 & A6 & A7)]]]]].
      * rewrite SRd, SRl, A3, A4, A5, A6 by assumption. rewrite !app_nil_r. reflexivity.
      * rewrite (D A1). destruct (CRd A1) as [-> ->]. rewrite SRl, A2, A3, A5, A6, A7 by assumption. rewrite ?app_nil_r. rewrite <- !app_assoc. reflexivity.
      * rewrite (D A1). destruct (CRd A1) as [-> ->]. rewrite SRl, A2, A3, A5, A6, A7 by assumption. rewrite ?app_nil_r. rewrite <- ?app_assoc. reflexivity.
      * rewrite (D A1). destruct (CRd A1) as [-> ->]. rewrite SRl, A2, A3, A5, A6, A7 by assumption. rewrite ?app_nil_r. rewrite <- ?app_assoc. reflexivity.
      * destruct (CRl A1) as [-> ->]. rewrite SRd, A2, A3, A5, A6, A7 by assumption. rewrite ?app_nil_r. rewrite <- ?app_assoc. reflexivity.
      * destruct (CRl A1) as [-> ->]. rewrite SRd, A2, A3, A5, A6, A7 by assumption. rewrite ?app_nil_r. rewrite <- ?app_assoc. reflexivity.
    + rewrite !collect_app. assert (Z : collect (rd_view E) [t] = [] /\ collect rl_view [t] = []).
      { destruct Hk as [[-> ->]|[[-> ->]|(dmx & a & -> & _ & ->)]]; try destruct (E_ctl E); split; reflexivity. }
      destruct Z as [-> ->]. cbn. rewrite !app_nil_r. reflexivity.
    + unfold recvq. cbn. rewrite !app_nil_r. reflexivity.
Qed.

(** * Sending *)
Definition queued (tr : list obs) : list (tag * payload) := collect (fun o => match o with OQueued x => [x] | _ => [] end) tr.
(** Payloads that left the queue and were transmitted or given up, and those transmitted. *)
Definition finished (tr : list obs) : list (tag * payload) := collect (fun o => match o with OTx x | ODrop x => [x] | _ => [] end) tr.
Definition transmitted (tr : list obs) : list (tag * payload) := collect (fun o => match o with OTx x => [x] | _ => [] end) tr.
Definition sl_view (t : thread) : list (tag * payload) := match t with SL_check x | SL_write x => [x] | _ => [] end.
Definition sendq (g : nat) (s : shared) : list (tag * payload) := match S_gens s !! g with Some ch => Q_send ch | None => [] end.
Lemma sl_view_0 t : is_sl t = 0%nat -> sl_view t = [].
Proof. destruct t; cbn; intros; try reflexivity; discriminate. Qed.
Lemma sendq_upd s g ch : (g < length (S_gens s))%nat -> sendq g (upd_gen s g ch) = Q_send ch.
Proof. intros H. unfold sendq, upd_gen. cbn. rewrite list_lookup_insert by exact H. reflexivity. Qed.
Lemma sendq_same s g g0 ch ch' : S_gens s !! g = Some ch -> Q_send ch' = Q_send ch -> sendq g0 (upd_gen s g ch') = sendq g0 s.
Proof.
  intros H E. destruct (Nat.eq_dec g g0) as [->|Hn].
  - rewrite sendq_upd by (eapply lookup_lt_Some; exact H). unfold sendq. rewrite H. exact E.
  - unfold sendq, upd_gen. cbn. rewrite list_lookup_insert_ne by exact Hn. reflexivity.
Qed.
Lemma sendq_start s g b : (length (S_gens s) <= S g)%nat -> sendq g (with_shutdown (with_gens s (S_gens s ++ [new_chans])) b) = sendq g s.
Proof.
  intros H. unfold sendq. cbn. destruct (Nat.eq_dec (length (S_gens s)) g) as [<-|Hn].
  - rewrite list_lookup_middle by reflexivity. rewrite lookup_ge_None_2 by lia. reflexivity.
  - destruct (Nat.lt_ge_cases g (length (S_gens s))).
    + rewrite lookup_app_l by lia. reflexivity.
    + rewrite !lookup_ge_None_2; [ reflexivity | lia | rewrite app_length; cbn; lia ].
Qed.
Lemma send_step E g0 c0 k0 s t c s' t' sp o : bounded g0 c0 k0 s -> bounded g0 c0 k0 s' -> placed E g0 c0 k0 s t ->
  tstep E s t c = Next s' t' sp o ->
  collect sl_view sp = [] /\
  ((* queue *) sl_view t' = sl_view t /\ sendq g0 s' = sendq g0 s ++ queued o /\ finished o = [] \/
   (* take *) is_sl t = 1%nat /\ sl_view t = [] /\ sendq g0 s = sl_view t' ++ sendq g0 s' /\ queued o = [] /\ finished o = [] \/
   (* finish *) is_sl t = 1%nat /\ sl_view t' = [] /\ finished o = sl_view t /\ sendq g0 s' = sendq g0 s /\ queued o = []).
Proof.
  intros B B' Hp H. unfold bounded in *.
  tcases H; qfacts; cbn [placed t_ok] in *; split; try reflexivity.
  all: try (left; repeat split; unfold queued; cbn [collect map concat app]; rewrite ?app_nil_r;
       first [ reflexivity | eapply sendq_same; [ eassumption | reflexivity ] | apply sendq_start; lia ]; fail).
  all: try (do 2 right; repeat split; fail).
  all: destruct_and?; subst.
  all: try (right; left; repeat split; rewrite sendq_upd by (eapply lookup_lt_Some; eassumption); unfold sendq;
    match goal with G : S_gens _ !! _ = _ |- _ => rewrite G end; assumption).
  all: left; repeat split; rewrite sendq_upd by (eapply lookup_lt_Some; eassumption); unfold sendq;
    match goal with G : S_gens _ !! _ = _ |- _ => rewrite G end; reflexivity.
Qed.
Theorem send_order E ls0 y0 tr0 ls y tr : runs E ls0 y0 tr0 -> quiescent y0 -> steps E y0 ls y tr -> (starts ls <= 1)%nat ->
  queued tr = finished tr ++ collect sl_view (Y_threads y) ++ sendq (length (S_gens (Y_sh y0))) (Y_sh y).
Proof.
  intros R0 Q H. induction H as [|y0 ls y1 tr1 l y2 o Hs IH Hl He]; intros Hn.
  - rewrite !(collect_quiescent _ y) by (reflexivity || exact Q). unfold sendq. rewrite lookup_ge_None_2 by lia. reflexivity.
  - assert (Hn1 : (starts ls <= 1)%nat) by (unfold starts in *; rewrite sum_list_with_app in Hn; lia).
    specialize (IH R0 Q Hn1). pose proof (single_run E _ _ _ _ Q Hs Hn1) as S1.
    pose proof (single_run E _ _ _ _ Q (steps_snoc E y0 ls y1 tr1 l y2 o Hs Hl He) Hn) as S2.
    unfold queued, finished in *. rewrite !collect_app. rewrite IH. clear IH.
    fold (queued o) (finished o) (finished tr1). apply exec_cases in He.
    destruct He as [(i & c & t & s & t' & sp & -> & Et & Es & ->)|[(t & -> & -> & Hk)|(mm & op & f & -> & -> & _)]]; cbn [Y_sh Y_threads] in *.
    + pose proof (Forall_lookup_1 _ _ _ _ (sg_placed _ _ _ _ _ S1) Et) as T2. pose proof (sg_bounded _ _ _ _ _ S2) as B2. cbn [Y_sh] in B2.
      destruct (send_step E _ _ _ _ _ _ _ _ _ _ (sg_bounded _ _ _ _ _ S1) B2 T2 Es) as (V1 & V).
      rewrite !collect_app, V1, !app_nil_r. pose proof (sg_sl _ _ _ _ _ S1) as Rl.
      assert (CS : is_sl t = 1%nat -> collect sl_view (Y_threads y1) = sl_view t /\ collect sl_view (<[i := t']> (Y_threads y1)) = sl_view t').
      { intros Hr. destruct (collect_one is_sl sl_view _ sl_view_0 i t Et ltac:(lia) Hr) as [C1 C2]. auto. }
      destruct V as [(A1 & A2 & A3)|[(A1 & A2 & A3 & A4 & A5)|(A1 & A2 & A3 & A4 & A5)]].
      * rewrite (collect_same sl_view _ i t t' Et A1), A2, A3. rewrite app_nil_r, <- !app_assoc. reflexivity.
      * destruct (CS A1) as [-> ->]. rewrite A2, A3, A4, A5. rewrite !app_nil_r. reflexivity.
      * destruct (CS A1) as [-> ->]. rewrite A2, A3, A4, A5. rewrite <- !app_assoc, app_nil_r. reflexivity.
    + rewrite !collect_app. assert (Z : collect sl_view [t] = []).
      { destruct Hk as [[-> ->]|[[-> ->]|(dmx & a & -> & _ & ->)]]; try destruct (E_ctl E); reflexivity. }
      rewrite Z. cbn. rewrite !app_nil_r. reflexivity.
    + unfold sendq. cbn. rewrite !app_nil_r. reflexivity.
Qed.
