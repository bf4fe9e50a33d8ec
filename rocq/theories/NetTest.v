(* NetTest.v -- concrete histories of a system of endpoints, used for the examples in PropertiesNet.v *)
From Verif Require Import Base BaseProofs GtlvModel DecEncModel DecEncSpec IesModel IesSpec TablesModel MsgModel MsgSpec
  EndpointModel EndpointSpec CpPeerModel NetModel.

Section Play.
Variables (nw : nat -> node) (delay late : option N).
Notation cfg j := (n_cfg (nw j)).
Definition play_ev (e : wevent) (w : world) : world :=
  match e with
  | WNode j ev => match step (cfg j) (w j) ev with Ok s => upd j s w | _ => w end
  | WTick dt => fun i => set_now (e_now (w i) + dt) (w i)
  end.
Definition play (l : list wevent) : world := fold_right play_ev (fun i => ep_create (n_time (nw i))) l.
Definition allowed (l : list wevent) (e : wevent) : Prop :=
  match e with
  | WNode j ev => good_event (cfg j) ev
     /\ match ev with ERx from d _ => in_flight nw delay (play l) from (n_addr (nw j)) d | ETick _ => False | _ => True end
     /\ match step (cfg j) (play l j) ev with Ok _ => true | _ => false end = true
  | WTick dt => forall L, late = Some L -> forall i q, In q (e_reqs (play l i) ++ e_resps (play l i)) -> e_now (play l i) + dt <= q_dl q + L
  end.
Fixpoint all_allowed (l : list wevent) : Prop := match l with [] => True | e :: l' => allowed l' e /\ all_allowed l' end.
Lemma play_step l e : allowed l e -> wstep nw delay late (play l) e (play (e :: l)).
Proof.
  intros H. cbn [play fold_right]. fold (play l). destruct e as [j ev|dt]; cbn [allowed play_ev] in *.
  - destruct H as (A & B & C). destruct (step (cfg j) (play l j) ev) as [s| |] eqn:E; try discriminate. econstructor; eassumption.
  - constructor. exact H.
Qed.
Lemma play_exec l : all_allowed l -> wexec nw delay late l (play l).
Proof. induction l as [|e l IH]; [constructor|]. intros [A B]. econstructor; [exact (IH B)|exact (play_step l e A)]. Qed.
Lemma play_runs l1 l2 : all_allowed (l2 ++ l1) -> wruns nw delay late (play l1) l2 (play (l2 ++ l1)).
Proof. induction l2 as [|e l IH]; [constructor|]. intros [A B]. econstructor; [exact (IH B)|exact (play_step _ e A)]. Qed.
End Play.

(* [only_answers] by computation *)
Definition sa_eq_dec (x y : sa) : {x = y} + {x <> y}.
Proof. decide equality; try apply N.eq_dec; apply (list_eq_dec N.eq_dec). Defined.
Fixpoint only_answers_b (tr : list out) : bool :=
  match tr with
  | [] => true
  | o :: b => match o with
      | OTx _ to h _ _ => negb (is_response (hd_type h)) || existsb (fun o' => match o' with
            | ODispatch f h' _ _ => (if sa_eq_dec f to then true else false) && negb (is_response (hd_type h')) && (hd_seq h' =? hd_seq h) | _ => false end) b
      | _ => true
      end && only_answers_b b
  end.
Lemma only_answers_ok s : only_answers_b (e_trace s) = true -> only_answers s.
Proof.
  intros H a id to h ies cb b E R. rewrite E in H. clear E. induction a as [|o a IH]; cbn [app only_answers_b] in H; apply andb_true_iff in H; destruct H as [H1 H2].
  - rewrite R in H1. cbn [negb orb] in H1. apply existsb_exists in H1. destruct H1 as (o & A & B). destruct o as [| | | | |f h' ies' r| | |]; try discriminate.
    apply andb_true_iff in B. destruct B as [B B3]. apply andb_true_iff in B. destruct B as [B1 B2]. destruct (sa_eq_dec f to) as [->|]; [|discriminate].
    exists h', ies', r. split; [exact A|]. split; [destruct (is_response (hd_type h')); [discriminate|reflexivity]|apply N.eqb_eq; exact B3].
  - exact (IH H2).
Qed.

(* ---------------------------------------------------------------- a server and two clients *)
Definition nt_addr (i : nat) : sa := Sa4 [127; 0; 0; 1] (8805 + N.of_nat i).
Definition nt_cfg (i : nat) : ep_cfg := mkEpCfg 2 500 3000 (IvNode (NodeV4 (Sa4 [127; 0; 0; 1] 0))).
Definition nt_nw (i : nat) : node := mkNode (nt_addr i) (nt_cfg i) 1000.
Lemma nt_distinct i k : n_addr (nt_nw i) = n_addr (nt_nw k) -> i = k.
Proof. intros H. injection H as H. lia. Qed.
Definition nt_node : slot iev := [VLeaf (IvNode (NodeV4 (Sa4 [127; 0; 0; 1] 0)))].
Definition nt_req : hdr := mkHdr 1 5 None None 0.
Definition nt_req_ies : list (slot iev) := [nt_node; [VLeaf (IvNum 7)]; []; []].
Definition nt_resp (nr : N) : hdr := mkHdr 1 6 None None nr.
Definition nt_resp_ies : list (slot iev) := [nt_node; [VLeaf (IvNum 1)]; [VLeaf (IvNum 7)]; []; []].
Definition nt_req_bytes (nr : N) : list N := [32; 5; 0; 21] ++ be_put 3 nr ++ [0; 0; 60; 0; 5; 0; 127; 0; 0; 1; 0; 96; 0; 4; 0; 0; 0; 7].
Definition nt_resp_bytes (nr : N) : list N := [32; 6; 0; 26] ++ be_put 3 nr ++ [0; 0; 60; 0; 5; 0; 127; 0; 0; 1; 0; 19; 0; 1; 1; 0; 96; 0; 4; 0; 0; 0; 7].
Lemma nt_req_good nr i : nr < 2 ^ 24 -> good_msg (mkHdr 1 5 None None nr) (put_node_id (c_node (nt_cfg i)) 5 nt_req_ies).
Proof.
  intros H. exists [0; 60; 0; 5; 0; 127; 0; 0; 1; 0; 96; 0; 4; 0; 0; 0; 7]. split; [|vm_compute; reflexivity].
  split; [repeat split; assumption|]. eexists. split; [reflexivity|]. split; [|split].
  - repeat constructor; vm_compute; try discriminate; auto; try (intros; discriminate). exists [127; 0; 0; 1]. repeat split. repeat constructor.
  - exists [[0; 127; 0; 0; 1]]. eexists. split; [constructor; [|constructor]; vm_compute; reflexivity|]. split; [reflexivity|].
    exists [[0; 0; 0; 7]]. eexists. split; [constructor; [|constructor]; vm_compute; reflexivity|]. split; [reflexivity|].
    exists [], []. split; [constructor|]. split; [reflexivity|]. exists [], []. split; [constructor|]. split; reflexivity.
  - vm_compute. discriminate.
Qed.
Lemma nt_resp_good nr i : nr < 2 ^ 24 -> good_msg (nt_resp nr) (put_node_id (c_node (nt_cfg i)) 6 nt_resp_ies).
Proof.
  intros H. exists [0; 60; 0; 5; 0; 127; 0; 0; 1; 0; 19; 0; 1; 1; 0; 96; 0; 4; 0; 0; 0; 7]. split; [|vm_compute; reflexivity].
  split; [repeat split; assumption|]. eexists. split; [reflexivity|]. split; [|split].
  - repeat constructor; vm_compute; try discriminate; auto; try (intros; discriminate). exists [127; 0; 0; 1]. repeat split. repeat constructor.
  - exists [[0; 127; 0; 0; 1]]. eexists. split; [constructor; [|constructor]; vm_compute; reflexivity|]. split; [reflexivity|].
    exists [[1]]. eexists. split; [constructor; [|constructor]; vm_compute; reflexivity|]. split; [reflexivity|].
    exists [[0; 0; 0; 7]]. eexists. split; [constructor; [|constructor]; vm_compute; reflexivity|]. split; [reflexivity|].
    exists [], []. split; [constructor|]. split; [reflexivity|]. exists [], []. split; [constructor|]. split; reflexivity.
  - vm_compute. discriminate.
Qed.
Definition nt_env (rx : list call) : env := mkEnv true true [] [] false rx.
Definition nt_bind (i : nat) : wevent := WNode i (ECall (CBind true)).
Definition nt_tx (i : nat) : wevent := WNode i (ECall (CTx (nt_addr 0) nt_req nt_req_ies true true [])).
(* the server receives request [nr] of client [i]; its receive callback answers *)
Definition nt_serve (i : nat) (nr : N) : wevent :=
  WNode 0 (ERx (nt_addr i) (nt_req_bytes nr) (fun _ => nt_env [CTx (nt_addr i) (nt_resp nr) nt_resp_ies false true []])).
(* ... does not answer yet *)
Definition nt_noanswer (i : nat) (nr : N) : wevent := WNode 0 (ERx (nt_addr i) (nt_req_bytes nr) (fun _ => nt_env [])).
Definition nt_recv (i : nat) (nr : N) : wevent := WNode i (ERx (nt_addr 0) (nt_resp_bytes nr) (fun _ => nt_env [])).
Definition nt_timer (i : nat) (id : N) : wevent := WNode i (ETimer id true []).
(* node 1 is a CP function with a peer for node 0 *)
Definition nt_peer_cfg : peer_cfg := mkPeerCfg (nt_addr 0) 1000 15.
Definition nt_assoc : wevent := WNode 1 (ECall (CTx (nt_addr 0) assoc_hdr (assoc_ies nt_peer_cfg) true true [])).
Definition nt_assoc_bytes (nr : N) : list N :=
  [32; 5; 0; 26] ++ be_put 3 nr ++ [0; 0; 60; 0; 5; 0; 127; 0; 0; 1; 0; 96; 0; 4; 0; 0; 3; 232; 0; 89; 0; 1; 16].
Definition nt_serve_assoc (nr : N) : wevent :=
  WNode 0 (ERx (nt_addr 1) (nt_assoc_bytes nr) (fun _ => nt_env [CTx (nt_addr 1) (nt_resp nr) nt_resp_ies false true []])).
Lemma nt_assoc_good nr i : nr < 2 ^ 24 -> good_msg (mkHdr 1 5 None None nr) (put_node_id (c_node (nt_cfg i)) 5 (assoc_ies nt_peer_cfg)).
Proof.
  intros H. exists [0; 60; 0; 5; 0; 127; 0; 0; 1; 0; 96; 0; 4; 0; 0; 3; 232; 0; 89; 0; 1; 16]. split; [|vm_compute; reflexivity].
  split; [repeat split; assumption|]. eexists. split; [reflexivity|]. split; [|split].
  - repeat constructor; vm_compute; try discriminate; auto; try (intros; discriminate). exists [127; 0; 0; 1]. repeat split. repeat constructor.
  - exists [[0; 127; 0; 0; 1]]. eexists. split; [constructor; [|constructor]; vm_compute; reflexivity|]. split; [reflexivity|].
    exists [[0; 0; 3; 232]]. eexists. split; [constructor; [|constructor]; vm_compute; reflexivity|]. split; [reflexivity|].
    exists [], [0; 89; 0; 1; 16]. split; [constructor|]. split; [reflexivity|]. exists [[16]], []. split; [constructor; [|constructor]; vm_compute; reflexivity|]. split; reflexivity.
  - vm_compute. discriminate.
Qed.
Definition nt_start : list wevent := [nt_bind 2; nt_bind 1; nt_bind 0].
(* client 1's first request is delivered twice, the answers are lost; the retransmission is answered from the cache *)
Definition nt_once : list wevent := rev
  [nt_tx 1; WTick 50; nt_serve 1 1; WTick 40; nt_serve 1 1; WTick 430; nt_timer 1 0; WTick 50; nt_serve 1 1; WTick 10; nt_recv 1 1].
(* client 2 happens to use the same sequence number *)
Definition nt_collide : list wevent := rev
  [nt_tx 1; WTick 50; nt_serve 1 1; nt_recv 1 1; nt_tx 2; WTick 50; nt_serve 2 1; WTick 450; nt_timer 2 0; nt_serve 2 1; WTick 500; nt_timer 2 0;
   nt_serve 2 1; WTick 500; nt_timer 2 0].
(* the CP function associates *)
Definition nt_associate : list wevent := rev [nt_assoc; WTick 50; nt_serve_assoc 1; WTick 10; nt_recv 1 1].
(* a slow application: the same request reaches it twice *)
Definition nt_twice : list wevent := rev
  [nt_tx 1; WTick 50; nt_noanswer 1 1; WTick 460; nt_timer 1 0; WTick 10; nt_noanswer 1 1].


(* these histories are possible, with delays up to 100 ms and timers run up to 50 ms late: by computation *)
Notation nt_play := (play nt_nw).
Definition nt_ok (l : list wevent) (j : nat) (ev : event) : bool := match step (nt_cfg j) (nt_play l j) ev with Ok _ => true | _ => false end.
Definition nt_fly (l : list wevent) (i : nat) (to : sa) (d : list N) : bool :=
  existsb (fun o => match o with OSend _ t to' d' => (if sa_eq_dec to to' then true else false) && (if list_eq_dec N.eq_dec d d' then true else false)
     && (e_now (nt_play l i) <=? t + 100) | _ => false end) (e_trace (nt_play l i)).
Definition nt_late (l : list wevent) (dt : N) (i : nat) : bool :=
  forallb (fun q => e_now (nt_play l i) + dt <=? q_dl q + 50) (e_reqs (nt_play l i) ++ e_resps (nt_play l i)).
Definition nt_idle (e : wevent) : bool := match e with WNode j _ => Nat.ltb j 3 | WTick _ => true end.
Lemma nt_fly_ok l i j d : nt_fly l i (nt_addr j) d = true -> in_flight nt_nw (Some 100) (nt_play l) (nt_addr i) (n_addr (nt_nw j)) d.
Proof.
  intros H. apply existsb_exists in H. destruct H as (o & A & B). destruct o as [| |x t to' d'| | | | | |]; try discriminate.
  destruct (sa_eq_dec (nt_addr j) to') as [<-|]; [|discriminate]. destruct (list_eq_dec N.eq_dec d d') as [<-|]; [|discriminate].
  exists i, x, t. split; [reflexivity|]. split; [exact A|]. apply N.leb_le. exact B.
Qed.
Lemma nt_idle_queues l i : forallb nt_idle l = true -> (3 <= i)%nat -> e_reqs (nt_play l i) ++ e_resps (nt_play l i) = [].
Proof.
  intros H Hi. induction l as [|e l IH]; [reflexivity|]. cbn [forallb] in H. apply andb_true_iff in H. destruct H as [H1 H2].
  cbn [play fold_right]. fold (nt_play l). destruct e as [j ev|dt]; cbn [play_ev].
  - destruct (step _ _ ev); try exact (IH H2). unfold upd. destruct (Nat.eqb i j) eqn:E; [|exact (IH H2)].
    apply Nat.eqb_eq in E. subst j. cbn [nt_idle] in H1. apply Nat.ltb_lt in H1. lia.
  - exact (IH H2).
Qed.
(* events whose calls are those above *)
Inductive nt_known : wevent -> Prop :=
| K_bind i : nt_known (nt_bind i)
| K_tx i : nt_known (nt_tx i)
| K_serve i nr : nr < 2 ^ 24 -> nt_known (nt_serve i nr)
| K_noanswer i nr : nt_known (nt_noanswer i nr)
| K_recv i nr : nt_known (nt_recv i nr)
| K_timer i id : nt_known (nt_timer i id)
| K_assoc : nt_known nt_assoc
| K_serve_assoc nr : nr < 2 ^ 24 -> nt_known (nt_serve_assoc nr)
| K_tick dt : nt_known (WTick dt).
Definition nt_check (l : list wevent) (e : wevent) : bool :=
  match e with
  | WNode j (ERx from d vs) => existsb (fun i => (if sa_eq_dec (nt_addr i) from then true else false) && nt_fly l i (nt_addr j) d) [0; 1; 2]%nat && nt_ok l j (ERx from d vs)
  | WNode j ev => nt_ok l j ev
  | WTick dt => forallb (nt_late l dt) [0; 1; 2]%nat && forallb nt_idle l
  end.
Lemma nt_allowed l e : nt_known e -> nt_check l e = true -> allowed nt_nw (Some 100) (Some 50) l e.
Proof.
  assert (RX : forall j from d vs, nt_check l (WNode j (ERx from d vs)) = true -> in_flight nt_nw (Some 100) (nt_play l) from (n_addr (nt_nw j)) d
    /\ match step (n_cfg (nt_nw j)) (nt_play l j) (ERx from d vs) with Ok _ => true | _ => false end = true).
  { intros j from d vs H. unfold nt_check in H. apply andb_true_iff in H. destruct H as [H1 H2]. split; [|exact H2].
    apply existsb_exists in H1. destruct H1 as (i & _ & B). apply andb_true_iff in B. destruct B as [B1 B2].
    destruct (sa_eq_dec (nt_addr i) from) as [<-|]; [|discriminate]. apply nt_fly_ok. exact B2. }
  intros K H. destruct K as [i|i|i nr Hn|i nr|i nr|i id| |nr Hn|dt].
  - split; [exact I|]. split; [exact I|exact H].
  - split; [split; [exact (nt_req_good 0 i eq_refl)|exact I]|]. split; [exact I|exact H].
  - split; [|exact (RX _ _ _ _ H)]. intros k. cbn. repeat split. exact (nt_resp_good nr 0 Hn).
  - split; [|exact (RX _ _ _ _ H)]. intros k. cbn. repeat split.
  - split; [|exact (RX _ _ _ _ H)]. intros k. cbn. repeat split.
  - split; [split; [reflexivity|exact I]|]. split; [exact I|exact H].
  - split; [split; [exact (nt_assoc_good 0 1 eq_refl)|exact I]|]. split; [exact I|exact H].
  - split; [|exact (RX _ _ _ _ H)]. intros k. cbn. repeat split. exact (nt_resp_good nr 0 Hn).
  - cbn [nt_check] in H. apply andb_true_iff in H. destruct H as [H1 H2]. intros L [= <-] i q Hq.
    destruct (Nat.ltb i 3) eqn:Ei.
    + apply Nat.ltb_lt in Ei. rewrite forallb_forall in H1. assert (Hi : In i [0; 1; 2]%nat) by (cbn; lia). specialize (H1 i Hi).
      unfold nt_late in H1. rewrite forallb_forall in H1. apply N.leb_le. exact (H1 q Hq).
    + apply Nat.ltb_ge in Ei. rewrite (nt_idle_queues l i H2 Ei) in Hq. destruct Hq.
Qed.
Fixpoint nt_checks (l : list wevent) : bool := match l with [] => true | e :: l' => nt_check l' e && nt_checks l' end.
Lemma nt_all l : Forall nt_known l -> nt_checks l = true -> all_allowed nt_nw (Some 100) (Some 50) l.
Proof.
  induction 1 as [|e l K Ks IH]; [intros _; exact I|]. cbn [nt_checks]. intros H. apply andb_true_iff in H. destruct H as [H1 H2].
  split; [exact (nt_allowed l e K H1)|exact (IH H2)].
Qed.
Lemma nt_once_ok : all_allowed nt_nw (Some 100) (Some 50) (nt_once ++ nt_start).
Proof. apply nt_all; [|vm_compute; reflexivity]. repeat constructor. Qed.
Lemma nt_collide_ok : all_allowed nt_nw (Some 100) (Some 50) (nt_collide ++ nt_start).
Proof. apply nt_all; [|vm_compute; reflexivity]. repeat constructor. Qed.
Lemma nt_associate_ok : all_allowed nt_nw (Some 100) (Some 50) (nt_associate ++ nt_start).
Proof. apply nt_all; [|vm_compute; reflexivity]. repeat constructor. Qed.
Lemma nt_twice_ok : all_allowed nt_nw (Some 100) (Some 50) (nt_twice ++ nt_start).
Proof. apply nt_all; [|vm_compute; reflexivity]. repeat constructor. Qed.

(* conditions on events, by computation *)
Lemma nt_never f j l : Forall (fun e => Forall (event_free f) (node_event j e)) l -> never f j l.
Proof. intros H e ev A B. rewrite Forall_forall in H. specialize (H e A). rewrite Forall_forall in H. exact (H ev B). Qed.
Lemma nt_serve_answers i : answers (ERx (nt_addr i) (nt_req_bytes 1) (fun _ => nt_env [CTx (nt_addr i) (nt_resp 1) nt_resp_ies false true []])).
Proof.
  intros n h ies H _ _. assert (E : rx_datagram (nt_req_bytes 1) = [RxMsg (mkHdr 1 5 None None 1) nt_req_ies]) by (vm_compute; reflexivity). rewrite E in H.
  destruct n as [|n]; [|destruct n; discriminate]. injection H as <- <-. exists (nt_resp 1), nt_resp_ies, [], []. repeat split.
Qed.

(* node [j] has sent nothing to node [k], and dispatched no message from there: by computation *)
Definition nt_peer (o : out) : option sa := match o with ODispatch f _ _ _ => Some f | OSend _ _ to _ => Some to | _ => None end.
Definition nt_nothing (l : list wevent) (j k : nat) : bool :=
  forallb (fun o => match nt_peer o with Some a => if sa_eq_dec a (nt_addr k) then false else true | None => true end) (e_trace (nt_play l j)).
Lemma nt_nothing_for l j k : nt_nothing l j k = true -> forall o, In o (e_trace (nt_play l j)) -> nt_peer o = Some (nt_addr k) -> False.
Proof.
  intros H o Ho E. unfold nt_nothing in H. rewrite forallb_forall in H. specialize (H o Ho). rewrite E in H. destruct (sa_eq_dec (nt_addr k) (nt_addr k)); [discriminate|contradiction].
Qed.

(* the peer's log: as in PropertiesPeer.v *)
Definition nt_peer_log : list pentry :=
  VSetCb true :: VAssociate :: [VAlloc 0 false; VSetCtx 0; VGive 0; VOwnTx 0] ++ map VEp (tl (rev (e_trace (nt_play (nt_associate ++ nt_start) 1%nat)))).
