(* NetFinal.v -- invariants of a system of endpoints (NetModel.v) and the lemmas behind C69 .. C72 *)
From Verif Require Import Base BaseProofs GtlvModel DecEncModel DecEncSpec IesModel IesSpec IesProofs TablesModel MsgModel MsgSpec MsgProofs MsgEncProofs RxProofs
  EndpointModel EndpointSpec EndpointProofs EndpointRun EndpointLife EndpointFinal EndpointProps EndpointExt EndpointProps2 EndpointProps3 NetModel NetProofs.

(* ---------------------------------------------------------------- messages *)
Lemma good_enc h ies : good_msg h ies -> exists d, encode_msg h ies = Ok d /\ rx_datagram d = [RxMsg h ies].
Proof.
  intros (bs & V & L). set (l := [(h, ies, bs)]). assert (Hv : all_valid l) by (constructor; [exact V|constructor]).
  assert (Hl : lenN (wire_bundle (strip l)) < alloc_size).
  { cbn [l strip map wire_bundle fst snd]. rewrite app_nil_r, lenN_app.
    assert (X : lenN (wire_hdr h false (lenN bs)) = hdr_len h).
    { unfold wire_hdr, hdr_len. destruct (hd_seid h); rewrite ?lenN_app, ?be_put_lenN; reflexivity. }
    lia. }
  destruct (encode_all_wire l alloc_size Hv (N.lt_le_incl _ _ Hl)) as (m & E & B). cbn [l msgs_of map fst encode_all] in E.
  exists (wire_bundle (strip l)). split; [|exact (rx_datagram_bundle l Hv Hl)].
  unfold encode_msg. destruct (msg_encode (msgb_new alloc_size) h ies) as [m1|m1 e|u]; try discriminate. injection E as ->. rewrite B. reflexivity.
Qed.
Lemma good_seq h ies nr : good_msg h ies -> nr < 2 ^ 24 -> good_msg (mkHdr (hd_version h) (hd_type h) (hd_prio h) (hd_seid h) nr) ies.
Proof.
  intros (bs & ((A & B & _ & C) & tab & T1 & T2 & T3 & T4) & L) Hn. exists bs. split; [|exact L]. split; [repeat split; assumption|]. exists tab. auto.
Qed.
Lemma good_unique h ies h' ies' d : good_msg h ies -> good_msg h' ies' -> encode_msg h ies = Ok d -> encode_msg h' ies' = Ok d -> h = h' /\ ies = ies'.
Proof.
  intros G G' E E'. destruct (good_enc _ _ G) as (d1 & A & B). destruct (good_enc _ _ G') as (d2 & A' & B').
  assert (d1 = d2) by congruence. subst d2. rewrite B in B'. injection B' as -> ->. auto.
Qed.
Lemma be_put_mod w : forall x, be_put w (x mod 256 ^ N.of_nat w) = be_put w x.
Proof.
  induction w as [|w IH]; intros x; cbn [be_put]; [reflexivity|].
  assert (P : 256 ^ N.of_nat w <> 0) by (apply N.pow_nonzero; lia).
  rewrite Nat2N.inj_succ, N.pow_succ_r'. f_equal.
  - rewrite N.mod_mul_r by lia. rewrite (N.mul_comm 256 (_ mod _)), N.div_add by lia. rewrite (N.div_small (x mod 256) 256) by (apply N.mod_lt; lia). cbn [N.add].
    apply IH.
  - f_equal. rewrite N.mod_mul_r by lia. rewrite (N.mul_comm 256 (_ mod _)), N.mod_add by lia. apply N.mod_mod. lia.
Qed.
Lemma hb_enc t nr r : t = 1 \/ t = 2 ->
  encode_msg (mkHdr 1 t None None nr) [[VLeaf (IvNum r)]] = Ok ([32; t; 0; 12] ++ be_put 3 nr ++ [0; 0; 96; 0; 4] ++ be_put 4 r).
Proof. intros [-> | ->]; vm_compute; reflexivity. Qed.
Lemma hb_good t nr r d : t = 1 \/ t = 2 -> nr < 2 ^ 24 -> encode_msg (mkHdr 1 t None None nr) [[VLeaf (IvNum r)]] = Ok d ->
  exists ies, good_msg (mkHdr 1 t None None nr) ies /\ encode_msg (mkHdr 1 t None None nr) ies = Ok d.
Proof.
  intros Ht Hn E. set (r' := r mod 2 ^ 32). exists [[VLeaf (IvNum r')]]. split.
  - exists ([0; 96; 0; 4] ++ be_put 4 r'). split; [|vm_compute; reflexivity]. split; [repeat split; [destruct Ht as [-> | ->]; vm_compute; reflexivity|assumption]|].
    exists ies_heartbeat. split; [destruct Ht as [-> | ->]; reflexivity|]. split; [|split].
    + constructor; [|constructor]. split; [vm_compute; reflexivity|]. constructor; [|constructor]. cbn. apply N.mod_lt. lia.
    + exists [be_put 4 r'], []. split; [repeat constructor|]. split; reflexivity.
    + vm_compute. discriminate.
  - rewrite <- E. rewrite !hb_enc by exact Ht. unfold r'. change (2 ^ 32) with (256 ^ N.of_nat 4). rewrite be_put_mod. reflexivity.
Qed.

(* ---------------------------------------------------------------- entries of traces *)
Section Net.
Variables (nw : nat -> node) (delay late : option N).
Notation cfg j := (n_cfg (nw j)).
Notation addr j := (n_addr (nw j)).
Notation exec := (wexec nw delay late).

(* a node at [from] has sent this message to [to], as datagram [d] *)
Definition from_msg (w : world) (from to : sa) (h : hdr) (ies : list (slot iev)) : Prop :=
  exists d i x t, addr i = from /\ In (OSend x t to d) (e_trace (w i)) /\ encode_msg h ies = Ok d /\ good_msg h ies.
Definition entry (T : N) (c : ep_cfg) (R : sa -> hdr -> list (slot iev) -> Prop) (o : out) (b : list out) : Prop :=
  match o with
  | OTx _ _ h ies _ => good_msg h (put_node_id (c_node c) (hd_type h) ies)
  | OSeq _ n => 1 <= n < 2 ^ 24
  | OSend (Some _) t _ _ => t <= T
  | OSend None t to bs => t <= T /\ (
    (exists nr r, In (OSeq None nr) b /\ encode_msg (mkHdr 1 msgt_heartbeat_req None None nr) [[VLeaf (IvNum r)]] = Ok bs)
    \/ (exists h ies r, R to h ies /\ hd_type h = msgt_heartbeat_req /\ encode_msg (mkHdr 1 msgt_heartbeat_resp None None (hd_seq h)) [[VLeaf (IvNum r)]] = Ok bs))
  | ODispatch from h ies _ => R from h ies
  | OResp _ (Some (h, ies)) => exists from, R from h ies
  | _ => True
  end.
Lemma entry_mono T T' c (R R' : sa -> hdr -> list (slot iev) -> Prop) o b b' : T <= T' -> (forall f h i, R f h i -> R' f h i) -> (forall x, In x b -> In x b') -> entry T c R o b -> entry T' c R' o b'.
Proof.
  intros HT H Hb. destruct o as [| | [i|] t to bs | |id [[h ies]|] | | | |]; cbn; auto.
  - lia.
  - intros [Ht [(nr & r & A & B)|(h & ies & r & A & B)]]; (split; [lia|]); [left; eauto|right; exists h, ies, r; auto].
  - intros (f & X). eauto.
Qed.
Lemma chain_in T c R new b o : chain (entry T c R) new b -> In o new -> entry T c R o (new ++ b).
Proof.
  induction new as [|x new IH]; [intros _ []|]. cbn [chain]. intros [A B] [->|Hi].
  - eapply entry_mono; [apply N.le_refl| | |exact A]; [auto|intros y Hy; right; exact Hy].
  - eapply entry_mono; [apply N.le_refl| | |exact (IH B Hi)]; [auto|intros y Hy; right; exact Hy].
Qed.
Lemma chain_mono T T' c (R R' : sa -> hdr -> list (slot iev) -> Prop) new b : T <= T' -> (forall f h i, R f h i -> R' f h i) -> chain (entry T c R) new b -> chain (entry T' c R') new b.
Proof.
  intros HT H. induction new as [|x new IH]; [auto|]. intros [A B]. split; [|exact (IH B)]. eapply entry_mono; [exact HT|exact H| |exact A]. auto.
Qed.

(* ---------------------------------------------------------------- each node is an endpoint *)
Definition history (j : nat) (l : list wevent) : list event := rev (flat_map (node_event j) l).
Lemma history_run l w : exec l w -> forall j, run (cfg j) (ep_create (n_time (nw j))) (history j l) = Ok (w j).
Proof.
  induction 1 as [|l w e w' X IH S]; intros j; [reflexivity|]. unfold history in *. cbn [flat_map]. rewrite rev_app_distr, run_app, IH. cbn [bind].
  destruct S as [i ev s G A E|dt A]; cbn [node_event].
  - unfold upd. rewrite Nat.eqb_sym. destruct (Nat.eqb j i) eqn:Ei; [|reflexivity]. apply Nat.eqb_eq in Ei. subst i. cbn [rev app run]. rewrite E. reflexivity.
  - reflexivity.
Qed.
Lemma exec_reach l w : exec l w -> forall j, reachable (cfg j) (w j).
Proof. intros X j. eexists. eexists. exact (history_run l w X j). Qed.
Lemma history_free f j l : never f j l -> Forall (event_free f) (history j l).
Proof.
  intros H. unfold history. apply Forall_rev, Forall_forall. intros ev Hev. apply in_flat_map in Hev. destruct Hev as (e & A & B). exact (H e ev A B).
Qed.

(* ---------------------------------------------------------------- what a datagram is *)
Definition chained (w : world) : Prop := forall j, chain (entry (e_now (w j)) (cfg j) (fun f h i => from_msg w f (addr j) h i)) (e_trace (w j)) [].

(* the message behind a datagram sent by node [i] *)
Lemma sent_datagram w i x t to d : reachable (cfg i) (w i) -> chained w -> In (OSend x t to d) (e_trace (w i)) ->
  exists h ies, good_msg h ies /\ encode_msg h ies = Ok d /\
    ((exists id h0 ies0 cb, x = Some id /\ In (OTx id to h0 ies0 cb) (e_trace (w i)) /\ (h, ies) = filled (cfg i) h0 ies0 (hd_seq h)
        /\ (if is_response (hd_type h0) then hd_seq h = hd_seq h0 else In (OSeq (Some id) (hd_seq h)) (e_trace (w i))))
     \/ (hd_type h = 1 /\ In (OSeq None (hd_seq h)) (e_trace (w i)))
     \/ (hd_type h = 2 /\ exists h0 ies0, from_msg w to (addr i) h0 ies0 /\ hd_type h0 = 1 /\ hd_seq h0 = hd_seq h)).
Proof.
  intros Re Ch Hs. specialize (Ch i). destruct x as [id|].
  - assert (Hid : id < e_next (w i)) by (eapply wf_about; [exact (reach_wf _ _ Re)|exact Hs|cbn; apply N.eqb_refl]).
    destruct (reach_known _ _ _ Re Hid) as (m & p & K).
    assert (Htx : In (OTx id (mi_to m) (mi_h m) (mi_ies m) (mi_cb m)) (e_trace (w i))).
    { apply (in_tr_of id); [cbn; apply N.eqb_refl|]. exact (li_txin _ _ _ _ _ _ _ (kn_inv _ _ _ _ _ _ _ K)). }
    destruct (what_is_sent _ _ _ _ _ _ _ _ _ _ Re Htx Hs) as (-> & nr & En & Hn).
    pose proof (chain_in _ _ _ _ _ _ Ch Htx) as G. cbn in G.
    assert (Hnr : nr < 2 ^ 24).
    { destruct (is_response (hd_type (mi_h m))); [subst nr; destruct G as (bs & ((_ & _ & Q & _) & _) & _); exact Q|].
      pose proof (chain_in _ _ _ _ _ _ Ch Hn) as Q. cbn in Q. lia. }
    eexists. eexists. split; [exact (good_seq _ _ nr G Hnr)|]. split; [exact En|]. left.
    exists id, (mi_h m), (mi_ies m), (mi_cb m). split; [reflexivity|]. split; [exact Htx|]. split; [reflexivity|exact Hn].
  - pose proof (chain_in _ _ _ _ _ _ Ch Hs) as X0. rewrite app_nil_r in X0. destruct X0 as [_ X0]. destruct X0 as [(nr & r & A & B)|(h0 & ies0 & r & A & B & C)].
    + pose proof (chain_in _ _ _ _ _ _ Ch A) as Q. cbn in Q. destruct (hb_good 1 nr r d) as (ies & G & En); [auto|lia|exact B|].
      eexists. exists ies. split; [exact G|]. split; [exact En|]. right. left. split; [reflexivity|exact A].
    + assert (Q : hd_seq h0 < 2 ^ 24). { destruct A as (d0 & k & x0 & t0 & _ & _ & _ & bs & ((_ & _ & Q & _) & _) & _). exact Q. }
      destruct (hb_good 2 (hd_seq h0) r d) as (ies & G & En); [auto|exact Q|exact C|].
      eexists. exists ies. split; [exact G|]. split; [exact En|]. right. right. split; [reflexivity|]. exists h0, ies0. auto.
Qed.
Lemma in_flight_msg w from j d : (forall i, reachable (cfg i) (w i)) -> chained w -> in_flight nw delay w from (addr j) d ->
  exists h ies, rx_datagram d = [RxMsg h ies] /\ from_msg w from (addr j) h ies.
Proof.
  intros Re Ch (i & x & t & A & B & _). destruct (sent_datagram w i x t _ d (Re i) Ch B) as (h & ies & G & En & _).
  exists h, ies. split; [|exists d, i, x, t; auto]. destruct (good_enc _ _ G) as (d' & E1 & E2). assert (d' = d) by congruence. subst d'. exact E2.
Qed.

(* traces only grow *)
Definition older (w w' : world) : Prop := forall i o, In o (e_trace (w i)) -> In o (e_trace (w' i)).
Lemma from_msg_older w w' : older w w' -> forall f t h i, from_msg w f t h i -> from_msg w' f t h i.
Proof. intros H f t h i (d & k & x & u & A & B & C). exists d, k, x, u. split; [exact A|]. split; [exact (H _ _ B)|exact C]. Qed.

Lemma node_grow w j ev s : (forall i, reachable (cfg i) (w i)) -> chained w -> good_event (cfg j) ev ->
  match ev with ERx from d _ => in_flight nw delay w from (addr j) d | ETick _ => False | _ => True end ->
  step (cfg j) (w j) ev = Ok s -> grow (e_now (w j)) (entry (e_now (w j)) (cfg j) (fun f h i => from_msg w f (addr j) h i)) (w j) s.
Proof.
  intros Re Ch G A E. eapply step_grow with (R := fun f h i => from_msg w f (addr j) h i); [| | | | | |exact G| |exact E].
  - intros o b Ho. destruct o as [| | [k|] | |? [[]|] | | | |]; cbn in *; try tauto. lia.
  - intros. cbn. assumption.
  - intros to nr b bs s0 Hn Hb. cbn. split; [lia|]. left. eauto.
  - intros. cbn. assumption.
  - intros from h ies id b Hr. cbn. eauto.
  - intros from h ies bs b s0 Hr Ht Hb. cbn. split; [lia|]. right. exists h, ies. eauto.
  - destruct ev as [a|from d vs|dt|id sd k]; auto. intros h ies Hin. destruct (in_flight_msg w from j d Re Ch A) as (h1 & ies1 & E1 & E2).
    rewrite E1 in Hin. destruct Hin as [Hin|[]]. injection Hin as -> ->. exact E2.
Qed.
Lemma step_older w e w' : (forall i, reachable (cfg i) (w i)) -> chained w -> wstep nw delay late w e w' ->
  forall i, exists new, e_trace (w' i) = new ++ e_trace (w i).
Proof.
  intros Re Ch S i. destruct S as [j ev s G A E|dt A]; [|exists []; reflexivity].
  unfold upd. destruct (Nat.eqb i j) eqn:Ei; [|exists []; reflexivity]. apply Nat.eqb_eq in Ei. subst i.
  destruct (node_grow w j ev s Re Ch G A E) as (_ & new & T & _). eauto.
Qed.
Lemma step_chained w e w' : (forall i, reachable (cfg i) (w i)) -> chained w -> wstep nw delay late w e w' -> chained w'.
Proof.
  intros Re Ch S. pose proof (step_older w e w' Re Ch S) as O.
  assert (Ol : older w w') by (intros i o Ho; destruct (O i) as (new & ->); apply in_app_iff; auto).
  intros i. apply chain_mono with (T := e_now (w i)) (R := fun f h k => from_msg w f (addr i) h k).
  { destruct S as [j ev s G A E|dt A]; [|cbn; lia]. unfold upd. destruct (Nat.eqb i j) eqn:Ei; [|lia]. apply Nat.eqb_eq in Ei. subst i.
    destruct (node_grow w j ev s Re Ch G A E) as (-> & _). lia. }
  { intros f h k. apply (from_msg_older w w' Ol). }
  destruct S as [j ev s G A E|dt A]; [|exact (Ch i)].
  unfold upd. destruct (Nat.eqb i j) eqn:Ei; [|exact (Ch i)]. apply Nat.eqb_eq in Ei. subst i.
  destruct (node_grow w j ev s Re Ch G A E) as (_ & new & -> & C).
  apply chain_app; [rewrite app_nil_r; exact (C eq_refl)|exact (Ch j)].
Qed.
Lemma exec_chained l w : exec l w -> chained w.
Proof.
  induction 1 as [|l w e w' X IH S]; [intros j; exact I|]. eapply step_chained; [exact (exec_reach l w X)|exact IH|exact S].
Qed.

(* ---------------------------------------------------------------- C69 *)
Lemma from_msg_sent l w j from h ies : exec l w -> from_msg w from (addr j) h ies ->
  exists i x t d, addr i = from /\ In (OSend x t (addr j) d) (e_trace (w i)) /\ encode_msg h ies = Ok d /\ sent_msg (cfg i) (w i) (addr j) h ies.
Proof.
  intros X (d & i & x & t & A & B & C & D). exists i, x, t, d. repeat split; try assumption.
  destruct (sent_datagram w i x t _ d (exec_reach l w X i) (exec_chained l w X) B) as (h' & ies' & G & En & K).
  destruct (good_unique _ _ _ _ _ D G C En) as [-> ->].
  destruct K as [(id & h0 & ies0 & cb & -> & K)|[K|(K & _)]]; [left; exists id, h0, ies0, cb; exact K|right; left; exact K|right; right; exact K].
Qed.
Theorem dispatch_integrity l w j from h ies r : exec l w -> In (ODispatch from h ies r) (e_trace (w j)) ->
  exists i x t d, addr i = from /\ In (OSend x t (addr j) d) (e_trace (w i)) /\ encode_msg h ies = Ok d /\ sent_msg (cfg i) (w i) (addr j) h ies.
Proof. intros X H. apply (from_msg_sent l w j from h ies X). exact (chain_in _ _ _ _ _ _ (exec_chained l w X j) H). Qed.
Theorem response_integrity l w j id h ies : exec l w -> In (OResp id (Some (h, ies))) (e_trace (w j)) ->
  exists i x t d, In (OSend x t (addr j) d) (e_trace (w i)) /\ encode_msg h ies = Ok d /\ sent_msg (cfg i) (w i) (addr j) h ies.
Proof.
  intros X H. destruct (chain_in _ _ _ _ _ _ (exec_chained l w X j) H) as (from & R).
  destruct (from_msg_sent l w j from h ies X R) as (i & x & t & d & _ & K). exists i, x, t, d. exact K.
Qed.

(* ---------------------------------------------------------------- C70 *)
Lemma good_enc_safe h ies : good_msg h ies -> enc_safe h ies.
Proof. intros G u E. destruct (good_enc _ _ G) as (d & A & _). congruence. Qed.
Lemma good_safe c a : good_call c a -> call_safe c a.
Proof.
  induction a as [to h ies has_cb sd k IH|to h ies sd|to sd|n| |ok] using call_ind'; cbn; try tauto.
  intros [G Gk]. split.
  - intros nr Hn. apply good_enc_safe. apply good_seq with (h := h); [exact G|]. destruct (is_response (hd_type h)); [|lia].
    subst nr. destruct G as (bs & ((_ & _ & Q & _) & _) & _). exact Q.
  - revert Gk. induction IH as [|x k Hx IH IH2]; cbn; [auto|]. intros [A B]. auto.
Qed.
Lemma goods_safe c k : good_calls c k -> calls_safe c k.
Proof. induction k as [|a k IH]; cbn; [auto|]. intros [A B]. split; [apply good_safe; exact A|exact (IH B)]. Qed.
Theorem system_safe l w j ev : exec l w -> good_event (cfg j) ev ->
  match ev with ERx from d _ => in_flight nw delay w from (addr j) d | _ => True end ->
  exists s, step (cfg j) (w j) ev = Ok s.
Proof.
  intros X G A. apply step_total; [exact (reach_wf _ _ (exec_reach l w X j))|].
  destruct ev as [a|from d vs|dt|id sd k]; cbn in *; auto.
  - apply good_safe. exact G.
  - split.
    + destruct (in_flight_msg w from j d (exec_reach l w X) (exec_chained l w X) A) as (h & ies & E & _). rewrite E. intros u [H|[]]. discriminate.
    + intros i h ies _. destruct (G i) as (G1 & G2 & G3 & G4). split; [destruct (is_response (hd_type h)); [exact G1|exact (proj1 (env_parts _ G1))]|].
      split; [apply goods_safe; exact G2|]. split; apply goods_safe; assumption.
  - destruct G as [G1 G2]. split; [exact G1|apply goods_safe; exact G2].
Qed.
Theorem datagram_is_message l w j from d : exec l w -> in_flight nw delay w from (addr j) d -> exists h ies, rx_datagram d = [RxMsg h ies] /\ encode_msg h ies = Ok d.
Proof.
  intros X A. destruct (in_flight_msg w from j d (exec_reach l w X) (exec_chained l w X) A) as (h & ies & E & (d' & i & x & t & _ & _ & En & G)).
  exists h, ies. split; [exact E|]. destruct (good_enc _ _ G) as (d2 & E1 & E2).
  destruct A as (i' & x' & t' & _ & B & _). destruct (sent_datagram w i' x' t' _ d (exec_reach l w X i') (exec_chained l w X) B) as (h3 & ies3 & G3 & En3 & _).
  destruct (good_enc _ _ G3) as (d3 & E3 & E4). assert (d3 = d) by congruence. subst d3. rewrite E in E4. injection E4 as -> ->. exact En3.
Qed.
End Net.
