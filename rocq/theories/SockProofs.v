(* SockProofs.v -- proofs for C112. *)
From Verif Require Import Base GtlvModel DecEncModel IesModel TablesModel MsgModel EndpointModel SockModel SockSpec.
Local Open Scope Z_scope.

Record inv (s : sk) : Prop := mkInv {
  iA : forall i, alive (k_trace s) i = option_map es_cb (k_eps s i);
  iB : forall i e, k_eps s i = Some e -> es_fd e = -1 \/ (0 <= es_fd e /\ holds (k_trace s) i (es_fd e) /\ es_cb e = true);
  iC : forall i f, holds (k_trace s) i f -> exists e, k_eps s i = Some e /\ es_fd e = f /\ 0 <= f;
  iD : forall f i, In (f, i) (k_reg s) <-> holds (k_trace s) i f;
  iE : forall f i, waits (k_trace s) f = Some i <-> holds (k_trace s) i f;
  iF : disciplined (k_trace s);
  iG : forall i, alive (k_trace s) i <> None -> exists cb, In (SysNew i cb) (k_trace s);
  iH : forall f who, holder (k_trace s) f = Some who -> 0 <= f }.

Lemma inv_0 : inv sk0.
Proof.
  split; cbn; try easy.
Qed.
Lemma registered_in fd i s : registered fd i s = true <-> In (fd, i) (k_reg s).
Proof.
  unfold registered. rewrite existsb_exists. split.
  - intros ([f j] & H & E). cbn in E. apply andb_true_iff in E as [E1 E2]. apply Z.eqb_eq in E1. apply N.eqb_eq in E2. subst. exact H.
  - intros H. exists (fd, i). split; [exact H|]. cbn. rewrite Z.eqb_refl, N.eqb_refl. reflexivity.
Qed.
Lemma holds_inj tr i j f : holds tr i f -> holds tr j f -> i = j.
Proof. unfold holds. intros H1 H2. rewrite H1 in H2. now injection H2. Qed.
Lemma none_held s i e : inv s -> k_eps s i = Some e -> es_fd e = -1 -> forall f, ~ holds (k_trace s) i f.
Proof. intros I He Hf f Hh. destruct (iC s I i f Hh) as (e' & E & Ef & Hp). rewrite He in E. injection E as <-. lia. Qed.

Ltac dq := match goal with
  | |- context [if ?a =? ?b then _ else _] => destruct (Z.eqb_spec a b)
  | |- context [if (?a =? ?b)%N then _ else _] => destruct (N.eqb_spec a b)
  | H : context [if ?a =? ?b then _ else _] |- _ => destruct (Z.eqb_spec a b)
  | H : context [if (?a =? ?b)%N then _ else _] |- _ => destruct (N.eqb_spec a b)
  end.

(* one more entry in the trace that changes nothing else *)
Lemma inv_log s o : inv s -> disciplined (o :: k_trace s) ->
  match o with SysSend _ _ | SysRecv _ _ | SysBind _ _ => True | _ => False end -> inv (slog o s).
Proof.
  intros I D H. destruct s as [ep rg tr]. destruct I as [A B C0 D0 E0 F G H0]; cbn in *.
  destruct o; try easy; (split; cbn; [exact A|exact B|exact C0|exact D0|exact E0|exact D|intros j Hj; destruct (G j Hj) as [cb Hc]; eauto|exact H0]).
Qed.

Lemma close_inv s i e : inv s -> k_eps s i = Some e ->
  exists s', sk_close i s = Ok s' /\ inv s' /\ k_eps s' i = Some (mkEs (es_cb e) (-1))
    /\ (forall fd, holder (k_trace s) fd = None \/ holder (k_trace s) fd = Some (Some i) -> holder (k_trace s') fd = None)
    /\ (forall fd, holder (k_trace s') fd = if es_fd e =? fd then None else holder (k_trace s) fd)
    /\ (forall j, alive (k_trace s') j = alive (k_trace s) j).
Proof.
  intros I He. unfold sk_close. rewrite He. destruct (iB s I i e He) as [Hf|(Hp & Hh & Hc)].
  - rewrite Hf. change (-1 =? -1) with true. cbn iota. exists s. split; [reflexivity|]. split; [exact I|]. split; [rewrite He; destruct e; cbn in *; subst; reflexivity|].
    split; [|split].
    + intros fd [H|H]; [exact H|]. exfalso. exact (none_held s i e I He Hf fd H).
    + intros fd. dq; [|reflexivity]. destruct (holder (k_trace s) fd) as [w|] eqn:Eh; [|reflexivity]. pose proof (iH s I fd w Eh). lia.
    + reflexivity.
  - destruct (es_fd e =? -1) eqn:Em; [apply Z.eqb_eq in Em; lia|].
    assert (Hr : registered (es_fd e) i s = true) by (apply registered_in; apply (iD s I); exact Hh). rewrite Hr. cbn [negb].
    eexists. split; [reflexivity|]. cbn. rewrite N.eqb_refl.
    split; [|split; [reflexivity|split; [|split; [reflexivity|reflexivity]]]].
    + destruct s as [ep rg tr]; cbn in *. destruct I as [A B C0 D0 E0 F G H0]; cbn in *. split; cbn.
      * intros j. rewrite A. dq; [subst; rewrite He; reflexivity|reflexivity].
      * intros j e'. dq; [intros [= <-]; left; reflexivity|]. intros Hj. destruct (B j e' Hj) as [?|(H1 & H2 & H3)]; [left; assumption|right].
        split; [exact H1|]. split; [|exact H3]. unfold holds. cbn. dq; [|exact H2]. exfalso. apply n. rewrite <- e0 in H2. exact (holds_inj _ _ _ _ H2 Hh).
      * intros j f. unfold holds. cbn. dq; [discriminate|]. intros H. destruct (C0 j f H) as (e' & H1 & H2 & H3).
        dq; [|eauto]. subst j. rewrite He in H1. injection H1 as <-. congruence.
      * intros f j. rewrite filter_In. cbn. unfold holds. cbn. rewrite D0. dq.
        { subst f. split; [|discriminate]. intros [H1 H2]. rewrite Z.eqb_refl in H2. cbn in H2. pose proof (holds_inj _ _ _ _ H1 Hh) as ->. rewrite N.eqb_refl in H2. discriminate. }
        { split; [tauto|]. intros H. split; [exact H|]. destruct (Z.eqb_spec f (es_fd e)); [congruence|reflexivity]. }
      * intros f j. unfold holds. cbn. dq; [split; discriminate|apply E0].
      * split; [split; [exact F|split; [exact Hh|apply E0; exact Hh]]|]. split; [exact Hh|]. dq; [reflexivity|congruence].
      * intros j Hj. destruct (G j Hj) as [cb Hcb]. exists cb. right. right. exact Hcb.
      * intros f w. dq; [discriminate|apply H0].
    + intros fd H. dq; [reflexivity|]. destruct H as [H|H]; [exact H|]. destruct (iC s I i fd H) as (e' & H1 & H2 & _). rewrite He in H1. injection H1 as <-. congruence.
Qed.

(* what one event does to the invariant *)
Lemma step_inv s ev : inv s -> possible (k_trace s) ev -> regular (k_trace s) ev -> exists s', sstep s ev = Ok s' /\ inv s'.
Proof.
  intros I P R. assert (LIVE : forall i, alive (k_trace s) i <> None -> exists e, k_eps s i = Some e).
  { intros i H. rewrite (iA s I) in H. destruct (k_eps s i); [eauto|easy]. }
  destruct ev as [i cb|i o|i|i|i|i|fd|fd|fd]; cbn [sstep possible regular] in *.
  - (* create *) eexists. split; [reflexivity|]. destruct s as [ep rg tr]; cbn in *. destruct I as [A B C0 D0 E0 F G H0]; cbn in *.
    assert (Hn : ep i = None). { destruct (ep i) eqn:E; [|reflexivity]. exfalso. destruct (G i) as [c Hc]; [rewrite A, E; discriminate|]. exact (P c Hc). }
    split; cbn.
    + intros j. rewrite (N.eqb_sym j i). dq; [reflexivity|apply A].
    + intros j e. dq; [intros [= <-]; left; reflexivity|]. intros Hj. destruct (B j e Hj) as [?|?]; [left|right]; assumption.
    + intros j f H. destruct (C0 j f H) as (e & H1 & H2). exists e. split; [|exact H2]. dq; [congruence|exact H1].
    + exact D0.
    + exact E0.
    + split; [exact F|exact Logic.I].
    + intros j. dq; [subst; intros _; exists cb; left; reflexivity|]. intros Hj. destruct (G j Hj) as [c Hc]. exists c. right. exact Hc.
    + exact H0.
  - (* bind *) destruct P as [Pa Po]. destruct (LIVE i Pa) as [e He]. destruct (close_inv s i e I He) as (s1 & E1 & I1 & He1 & Hfree & Hhold & Hal).
    unfold sk_bind. rewrite E1. cbn [bind]. rewrite He1. cbn [es_cb].
    pose proof (none_held s1 i _ I1 He1 eq_refl) as Hno.
    destruct (es_cb e) eqn:Ecb; cbn [negb].
    2:{ eexists. split; [reflexivity|]. apply inv_log; [exact I1|split; [exact (iF _ I1)|exact Hno]|exact Logic.I]. }
    destruct o as [fd|er|fd er]; [|eexists; split; [reflexivity|]; apply inv_log; [exact I1|split; [exact (iF _ I1)|exact Hno]|exact Logic.I]|destruct R].
    eexists. split; [reflexivity|]. destruct Po as [Hp Hf]. assert (Hnone : holder (k_trace s1) fd = None) by (apply Hfree; destruct Hf as [?|[_ ?]]; auto).
    clear Hf Hfree Hhold. destruct s1 as [ep rg tr]; cbn in *. destruct I1 as [A B C0 D0 E0 F G H0]; cbn in *.
    assert (HD : disciplined (SysBind i None :: SysReg fd i :: SysSocket fd (Some i) :: tr)).
    { cbn. unfold holds; cbn. rewrite Z.eqb_refl. split; [split; [split; [exact F|split; [exact Hnone|exact Hno]]|reflexivity]|]. exists fd. rewrite !Z.eqb_refl. split; reflexivity. }
    split; [| | | | |exact HD| |]; cbn.
    + intros j. rewrite A. dq; [subst; rewrite He1; reflexivity|reflexivity].
    + intros j e'. unfold holds; cbn. destruct (N.eqb_spec j i).
      * intros [= <-]. cbn. right. rewrite Z.eqb_refl. subst j. auto.
      * intros Hj. destruct (B j e' Hj) as [?|(H1 & H2 & H3)]; [left; assumption|right]. split; [exact H1|]. split; [|exact H3].
        dq; [subst; unfold holds in H2; congruence|exact H2].
    + intros j f. unfold holds; cbn. dq.
      * intros [= <-]. rewrite N.eqb_refl. exists (mkEs true fd). subst f. auto.
      * intros H. destruct (C0 j f H) as (e' & H1 & H2). dq; [subst j; exfalso; exact (Hno f H)|eauto].
    + intros f j. unfold holds; cbn. dq.
      * subst f. split; [intros [[= ->]|H]; [reflexivity|apply D0 in H; unfold holds in H; congruence]|intros [= ->]; left; reflexivity].
      * pose proof (D0 f j) as K. unfold holds in K. rewrite <- K. split; [intros [[= -> _]|H]; [congruence|exact H]|auto].
    + intros f j. unfold holds; cbn. dq; [|apply E0]. split; intros [= ->]; reflexivity.
    + intros j Hj. destruct (G j Hj) as [c Hc]. exists c. right. right. right. exact Hc.
    + intros f w. dq; [intros _; lia|apply H0].
  - (* close *) destruct (LIVE i P) as [e He]. destruct (close_inv s i e I He) as (s1 & E1 & I1 & _). eauto.
  - (* free *) unfold sk_free. destruct (k_eps s i) as [e|] eqn:He; [|eauto]. destruct (close_inv s i e I He) as (s1 & E1 & I1 & He1 & _).
    rewrite E1. cbn [bind]. eexists. split; [reflexivity|]. pose proof (none_held s1 i _ I1 He1 eq_refl) as Hno.
    destruct s1 as [ep rg tr]; cbn in *. destruct I1 as [A B C0 D0 E0 F G H0]; cbn in *. split; cbn.
    + intros j. rewrite (N.eqb_sym j i). dq; [reflexivity|apply A].
    + intros j e'. dq; [discriminate|]. apply B.
    + intros j f H. destruct (C0 j f H) as (e' & H1 & H2). dq; [subst j; exfalso; exact (Hno f H)|eauto].
    + exact D0.
    + exact E0.
    + split; [exact F|exact Hno].
    + intros j. dq; [easy|]. intros Hj. destruct (G j Hj) as [c Hc]. exists c. right. exact Hc.
    + exact H0.
  - (* talloc_free of the context *) unfold sk_ctx_free. destruct (k_eps s i) as [e|] eqn:He; [|eauto]. eexists. split; [reflexivity|].
    destruct s as [ep rg tr]; cbn in *. destruct I as [A B C0 D0 E0 F G H0]; cbn in *. split; cbn.
    + intros j. rewrite (N.eqb_sym j i). dq; [reflexivity|apply A].
    + intros j e'. dq; [discriminate|]. apply B.
    + intros j f H. destruct (C0 j f H) as (e' & H1 & H2). dq; [subst j; exfalso; exact (R f H)|eauto].
    + exact D0.
    + exact E0.
    + split; [exact F|exact R].
    + intros j. dq; [easy|]. intros Hj. destruct (G j Hj) as [c Hc]. exists c. right. exact Hc.
    + exact H0.
  - (* send *) destruct (LIVE i P) as [e He]. unfold sk_send. rewrite He. eexists. split; [reflexivity|]. apply inv_log; [exact I| |exact Logic.I].
    split; [exact (iF s I)|]. destruct (iB s I i e He) as [Hf|(_ & Hh & _)]; [right; split; [exact Hf|exact (none_held s i e I He Hf)]|left; exact Hh].
  - (* readable *) unfold sk_ready. destruct (find _ (k_reg s)) as [[f i]|] eqn:Ef; [|eauto]. apply find_some in Ef as [Hin Hq]. cbn in Hq. apply Z.eqb_eq in Hq. subst f.
    apply (iD s I) in Hin. destruct (iC s I i fd Hin) as (e & He & Hfd & Hp). rewrite He. destruct (iB s I i e He) as [?|(_ & Hh & Hc)]; [lia|]. rewrite Hc.
    eexists. split; [reflexivity|]. apply inv_log; [exact I|split; [exact (iF s I)|exact Hh]|exact Logic.I].
  - (* the application opens *) eexists. split; [reflexivity|]. destruct P as [Hp [Hn|[Hx _]]]; [|easy].
    destruct s as [ep rg tr]; cbn in *. destruct I as [A B C0 D0 E0 F G H0]; cbn in *.
    assert (K : forall j f, holder (SysSocket fd None :: tr) f = Some (Some j) <-> holder tr f = Some (Some j)).
    { intros j f. cbn. dq; [subst; rewrite Hn; split; discriminate|tauto]. }
    split; cbn [k_eps k_reg k_trace slog]; unfold holds in *.
    + exact A.
    + intros j e' Hj. rewrite K. exact (B j e' Hj).
    + intros j f. rewrite K. apply C0.
    + intros f j. rewrite K. apply D0.
    + intros f j. rewrite K. apply E0.
    + cbn. auto.
    + intros j Hj. destruct (G j Hj) as [c Hc]. exists c. right. exact Hc.
    + intros f w. cbn. dq; [intros _; lia|apply H0].
  - (* the application closes *) eexists. split; [reflexivity|].
    destruct s as [ep rg tr]; cbn in *. destruct I as [A B C0 D0 E0 F G H0]; cbn in *.
    assert (K : forall j f, holder (SysClose fd None :: tr) f = Some (Some j) <-> holder tr f = Some (Some j)).
    { intros j f. cbn. dq; [subst; rewrite P; split; discriminate|tauto]. }
    split; cbn [k_eps k_reg k_trace slog]; unfold holds in *.
    + exact A.
    + intros j e' Hj. rewrite K. exact (B j e' Hj).
    + intros j f. rewrite K. apply C0.
    + intros f j. rewrite K. apply D0.
    + intros f j. rewrite K. apply E0.
    + cbn. split; [exact F|]. split; [exact P|]. destruct (waits tr fd) as [j|] eqn:Ew; [|reflexivity]. apply E0 in Ew. congruence.
    + intros j Hj. destruct (G j Hj) as [c Hc]. exists c. right. exact Hc.
    + intros f w. cbn. dq; [discriminate|apply H0].
Qed.

Lemma history_inv evs s : history evs s -> inv s.
Proof.
  induction 1 as [|evs s ev s' H IH P R E]; [exact inv_0|]. destruct (step_inv s ev IH P R) as (s2 & E2 & I2). congruence.
Qed.

Lemma one_socket s i f g : inv s -> holds (k_trace s) i f -> holds (k_trace s) i g -> f = g.
Proof. intros I H1 H2. destruct (iC s I i f H1) as (e & E1 & F1 & _). destruct (iC s I i g H2) as (e' & E2 & F2 & _). congruence. Qed.
Lemma held_alive s i f : inv s -> holds (k_trace s) i f -> alive (k_trace s) i = Some true.
Proof.
  intros I H. destruct (iC s I i f H) as (e & E1 & F1 & Hp). rewrite (iA s I), E1. cbn. f_equal.
  destruct (iB s I i e E1) as [?|(_ & _ & Hc)]; [lia|exact Hc].
Qed.
Lemma after_close s i s' : inv s -> sstep s (SvClose i) = Ok s' ->
  (forall f, ~ holds (k_trace s') i f) /\ (forall j, alive (k_trace s') j = alive (k_trace s) j)
  /\ (forall f w, w <> Some i -> (holder (k_trace s') f = Some w <-> holder (k_trace s) f = Some w)).
Proof.
  intros I E. cbn in E. destruct (k_eps s i) as [e|] eqn:He; [|unfold sk_close in E; rewrite He in E; discriminate].
  destruct (close_inv s i e I He) as (s1 & E1 & I1 & He1 & _ & Hh & Ha). rewrite E1 in E. injection E as <-.
  split; [exact (none_held s1 i _ I1 He1 eq_refl)|]. split; [exact Ha|]. intros f w Hw. rewrite Hh. destruct (Z.eqb_spec (es_fd e) f) as [<-|]; [|tauto].
  destruct (iB s I i e He) as [Hf|(_ & Hx & _)].
  - rewrite Hf. split; [discriminate|]. intros H. pose proof (iH s I _ _ H). lia.
  - unfold holds in Hx. rewrite Hx. split; [discriminate|]. intros [= <-]. easy.
Qed.
Lemma bind_result s i o s' : inv s -> regular (k_trace s) (SvBind i o) -> sstep s (SvBind i o) = Ok s' ->
  exists r tr, k_trace s' = SysBind i r :: tr
    /\ match r with
       | None => alive (k_trace s) i = Some true /\ exists fd, o = SkOk fd /\ holds (k_trace s') i fd /\ waits (k_trace s') fd = Some i
       | Some e => (alive (k_trace s) i = Some false /\ e = EINVAL \/ alive (k_trace s) i = Some true /\ o = SkFail e) /\ forall f, ~ holds (k_trace s') i f
       end.
Proof.
  intros I R E. cbn in E. unfold sk_bind in E. destruct (k_eps s i) as [e|] eqn:He; [|unfold sk_close in E; rewrite He in E; discriminate].
  destruct (close_inv s i e I He) as (s1 & E1 & I1 & He1 & _ & Hh & Ha). rewrite E1 in E. cbn [bind] in E. rewrite He1 in E. cbn [es_cb] in E.
  pose proof (none_held s1 i _ I1 He1 eq_refl) as Hno.
  assert (Hal : alive (k_trace s) i = Some (es_cb e)) by (rewrite (iA s I), He; reflexivity). rewrite Hal.
  destruct (es_cb e); cbn [negb] in E.
  - destruct o as [fd|er|fd er]; [| |destruct R]; injection E as <-; cbn; eexists _, _; (split; [reflexivity|]).
    + split; [reflexivity|]. exists fd. unfold holds; cbn. rewrite Z.eqb_refl. auto.
    + split; [right; auto|exact Hno].
  - injection E as <-. cbn. eexists _, _. split; [reflexivity|]. split; [left; auto|exact Hno].
Qed.
Lemma ready_result s fd : inv s ->
  match waits (k_trace s) fd with
  | Some i => sstep s (SvReady fd) = Ok (slog (SysRecv fd i) s) /\ alive (k_trace s) i = Some true
  | None => sstep s (SvReady fd) = Ok s
  end.
Proof.
  intros I. cbn. unfold sk_ready. destruct (waits (k_trace s) fd) as [i|] eqn:Ew.
  - apply (iE s I) in Ew. pose proof (held_alive s i fd I Ew) as Ha. pose proof (proj2 (iD s I fd i) Ew) as Hin.
    destruct (find _ (k_reg s)) as [[f j]|] eqn:Ef.
    + apply find_some in Ef as [Hj Hq]. cbn in Hq. apply Z.eqb_eq in Hq. subst f. apply (iD s I) in Hj. pose proof (holds_inj _ _ _ _ Hj Ew) as ->.
      destruct (iC s I i fd Ew) as (e & He & Hfd & _). rewrite He. pose proof (iA s I i) as A. rewrite He, Ha in A. injection A as <-. rewrite Hfd. auto.
    + pose proof (find_none _ _ Ef _ Hin) as Hq. cbn in Hq. rewrite Z.eqb_refl in Hq. discriminate.
  - destruct (find _ (k_reg s)) as [[f j]|] eqn:Ef; [|reflexivity].
    apply find_some in Ef as [Hj Hq]. cbn in Hq. apply Z.eqb_eq in Hq. subst f. apply (iD s I) in Hj. apply (iE s I) in Hj. congruence.
Qed.

(* if registration fails *)
Lemma reg_failure s i fd er : inv s -> alive (k_trace s) i = Some true -> fresh_fd (k_trace s) (Some i) fd ->
  exists s1, sstep s (SvBind i (SkRegFail fd er)) = Ok s1 /\ holder (k_trace s1) fd = None /\ (exists tr, k_trace s1 = SysBind i (Some er) :: tr)
    /\ (exists u, sstep s1 (SvClose i) = UB u)
    /\ srun s1 [SvAppOpen fd; SvSend i] = Ok (slog (SysSend fd i) (slog (SysSocket fd None) s1)).
Proof.
  intros I Ha [Hp Hf]. pose proof (iA s I i) as A. rewrite Ha in A. destruct (k_eps s i) as [e|] eqn:He; [|discriminate]. cbn in A. injection A as A.
  destruct (close_inv s i e I He) as (s1 & E1 & I1 & He1 & Hfree & _). cbn [sstep]. unfold sk_bind. rewrite E1. cbn [bind]. rewrite He1. cbn [es_cb]. rewrite <- A. cbn [negb].
  eexists. split; [reflexivity|]. split; [cbn; rewrite Z.eqb_refl; reflexivity|]. split; [cbn; eauto|]. split.
  - cbn [sstep]. unfold sk_close. cbn [k_eps put_ep slog]. rewrite N.eqb_refl. cbn [es_fd]. destruct (Z.eqb_spec fd (-1)); [lia|].
    match goal with |- context [registered fd i ?x] => destruct (registered fd i x) eqn:Er end; [|cbn; eauto].
    exfalso. apply registered_in in Er. cbn in Er. apply (iD s1 I1) in Er. unfold holds in Er.
    rewrite (Hfree fd) in Er; [discriminate|]. destruct Hf as [?|[_ ?]]; auto.
  - cbn. unfold sk_send; cbn. rewrite N.eqb_refl. reflexivity.
Qed.
(* if the endpoint's memory is released with its talloc context *)
Lemma ctx_failure s i fd : inv s -> holds (k_trace s) i fd ->
  exists s1, sstep s (SvCtxFree i) = Ok s1 /\ alive (k_trace s1) i = None /\ holds (k_trace s1) i fd /\ sstep s1 (SvReady fd) = UB DoubleFree.
Proof.
  intros I H. destruct (iC s I i fd H) as (e & He & Hfd & Hp). cbn. unfold sk_ctx_free. rewrite He. eexists. split; [reflexivity|].
  cbn. rewrite N.eqb_refl. split; [reflexivity|]. split; [exact H|]. unfold sk_ready; cbn.
  destruct (find _ (k_reg s)) as [[f j]|] eqn:Ef.
  - apply find_some in Ef as [Hj Hq]. cbn in Hq. apply Z.eqb_eq in Hq. subst f. apply (iD s I) in Hj. pose proof (holds_inj _ _ _ _ Hj H) as ->. rewrite N.eqb_refl. reflexivity.
  - pose proof (find_none _ _ Ef _ (proj2 (iD s I fd i) H)) as Hq. cbn in Hq. rewrite Z.eqb_refl in Hq. discriminate.
Qed.

(* relation to EndpointModel.v: what events do to endpoint i *)
Lemma bind_other s j o s' : inv s -> sstep s (SvBind j o) = Ok s' -> regular (k_trace s) (SvBind j o) -> possible (k_trace s) (SvBind j o) -> forall i, i <> j ->
  alive (k_trace s') i = alive (k_trace s) i /\ forall f, holds (k_trace s') i f <-> holds (k_trace s) i f.
Proof.
  intros I E R [_ P] i Hi. cbn in E. unfold sk_bind in E. destruct (sk_close j s) as [s1| |] eqn:E1; try discriminate. cbn [bind] in E.
  assert (E1' : sstep s (SvClose j) = Ok s1) by exact E1. destruct (after_close s j s1 I E1') as (_ & Ha & Hh).
  assert (K : forall f, holds (k_trace s1) i f <-> holds (k_trace s) i f) by (intros f; apply Hh; congruence).
  destruct (k_eps s1 j) as [e|]; [|discriminate]. destruct (es_cb e); cbn [negb] in E; [|injection E as <-; cbn; split; [apply Ha|exact K]].
  destruct o as [fd|er|fd er]; [|injection E as <-; cbn; split; [apply Ha|exact K]|destruct R].
  injection E as <-. cbn. split; [apply Ha|]. intros f. rewrite <- K. unfold holds; cbn. destruct (Z.eqb_spec fd f) as [->|]; [|tauto].
  split; [congruence|]. intros H. apply K in H. unfold holds in H. destruct P as [_ [P|[_ P]]]; congruence.
Qed.
Lemma other_event s ev s' i : inv s -> possible (k_trace s) ev -> regular (k_trace s) ev -> sstep s ev = Ok s' ->
  match ev with SvBind j _ | SvClose j | SvCreate j _ => j <> i | _ => True end -> alive (k_trace s') i <> None ->
  alive (k_trace s) i = alive (k_trace s') i /\ forall f, holds (k_trace s') i f <-> holds (k_trace s) i f.
Proof.
  intros I P R E H Ha. destruct ev as [j cb|j o|j|j|j|j|fd|fd|fd].
  - cbn in E. injection E as <-. cbn in *. unfold holds; cbn. destruct (N.eqb_spec j i); [easy|]. tauto.
  - destruct (bind_other s j o s' I E R P i) as [A B]; [congruence|]. split; [symmetry; exact A|exact B].
  - destruct (after_close s j s' I E) as (_ & A & B). split; [symmetry; apply A|]. intros f. apply B. congruence.
  - cbn in E. unfold sk_free in E. destruct (k_eps s j); [|injection E as <-; tauto]. destruct (sk_close j s) as [s1| |] eqn:E1; try discriminate.
    assert (E1' : sstep s (SvClose j) = Ok s1) by exact E1. destruct (after_close s j s1 I E1') as (_ & A & B).
    injection E as <-. cbn in *. destruct (N.eqb_spec j i); [easy|]. split; [symmetry; apply A|]. intros f. apply B. congruence.
  - cbn in E. unfold sk_ctx_free in E. destruct (k_eps s j); injection E as <-; [|tauto]. cbn in *. destruct (N.eqb_spec j i); [easy|]. tauto.
  - cbn in E. unfold sk_send in E. destruct (k_eps s j); [|discriminate]. injection E as <-. cbn in *. tauto.
  - pose proof (ready_result s fd I) as Q. destruct (waits (k_trace s) fd); [destruct Q as [Q _]|]; rewrite Q in E; injection E as <-; cbn in *; tauto.
  - cbn in E. injection E as <-. cbn in *. split; [reflexivity|]. intros f. unfold holds; cbn. destruct (Z.eqb_spec fd f) as [->|]; [|tauto].
    destruct P as [_ [P|[P _]]]; [|easy]. rewrite P. split; discriminate.
  - cbn in E. injection E as <-. cbn in *. split; [reflexivity|]. intros f. unfold holds; cbn. destruct (Z.eqb_spec fd f) as [->|]; [|tauto].
    rewrite P. split; discriminate.
Qed.

Lemma close_ext i s s' : sk_close i s = Ok s' -> incl (k_trace s) (k_trace s').
Proof.
  unfold sk_close. destruct (k_eps s i) as [e|]; [|discriminate]. destruct (es_fd e =? -1); [intros [= <-]; apply incl_refl|].
  destruct (negb _); [discriminate|]. intros [= <-]. cbn. intros x H. right. right. exact H.
Qed.
Lemma step_ext s ev s' : sstep s ev = Ok s' -> incl (k_trace s) (k_trace s').
Proof.
  assert (T : forall o (t : list sys), incl t (o :: t)) by (intros o t x Hx; right; exact Hx).
  destruct ev as [j cb|j o|j|j|j|j|fd|fd|fd]; cbn.
  - intros [= <-]. apply T.
  - unfold sk_bind. destruct (sk_close j s) as [s1| |] eqn:E1; try discriminate. apply close_ext in E1. cbn [bind]. intros E. eapply incl_tran; [exact E1|].
    destruct (k_eps s1 j) as [e|]; [|discriminate]. destruct (negb _); [injection E as <-; apply T|]. destruct o; injection E as <-; cbn; repeat apply incl_tl; apply incl_refl.
  - apply close_ext.
  - unfold sk_free. destruct (k_eps s j); [|intros [= <-]; apply incl_refl]. destruct (sk_close j s) as [s1| |] eqn:E1; try discriminate. apply close_ext in E1.
    intros [= <-]. cbn. apply incl_tl. exact E1.
  - unfold sk_ctx_free. destruct (k_eps s j); intros [= <-]; [apply T|apply incl_refl].
  - unfold sk_send. destruct (k_eps s j); [|discriminate]. intros [= <-]. apply T.
  - unfold sk_ready. destruct (find _ _) as [[f j]|]; [|intros [= <-]; apply incl_refl]. destruct (k_eps s j) as [e|]; [|discriminate]. destruct (es_cb e); [|discriminate]. intros [= <-]. apply T.
  - intros [= <-]. apply T.
  - intros [= <-]. apply T.
Qed.


Lemma run_snoc c l : forall p ev, run c p (l ++ [ev]) = (p' <- run c p l ;; step c p' ev).
Proof.
  induction l as [|e l IH]; intros p ev; cbn [app run bind].
  - destruct (step c p ev); reflexivity.
  - destruct (step c p e); cbn [bind]; [apply IH|reflexivity|reflexivity].
Qed.
Lemma no_calls i cb evs s : history evs s -> (forall b, ~ In (SysNew i b) (k_trace s)) -> flat_map (as_calls i cb) evs = [].
Proof.
  induction 1 as [|evs s ev s' H IH P R E]; intros Hn; [reflexivity|]. pose proof (step_ext s ev s' E) as X.
  assert (Hn' : forall b, ~ In (SysNew i b) (k_trace s)) by (intros b Hb; exact (Hn b (X _ Hb))).
  rewrite flat_map_app, (IH Hn'). cbn. rewrite app_nil_r.
  assert (K : alive (k_trace s) i = None). { destruct (alive (k_trace s) i) eqn:A; [|reflexivity]. destruct (iG s (history_inv _ _ H) i) as [b2 Hb]; [congruence|]. exfalso. exact (Hn' b2 Hb). }
  destruct ev as [j ?|j o|j|j|j|j|fd|fd|fd]; cbn; try reflexivity; destruct (N.eqb_spec j i); try reflexivity; subst; cbn in P; rewrite K in P; [destruct P|]; easy.
Qed.
Lemma endpoint_model c time i cb : forall evs s, history evs s -> alive (k_trace s) i = Some cb ->
  exists p, run c (ep_create time) (flat_map (as_calls i cb) evs) = Ok p /\ (e_open p = true <-> exists fd, holds (k_trace s) i fd).
Proof.
  induction 1 as [|evs s ev s' H IH P R E]; intros Ha; [discriminate|]. pose proof (history_inv _ _ H) as I.
  rewrite flat_map_app. cbn [flat_map]. rewrite app_nil_r.
  assert (OTHER : match ev with SvBind j _ | SvClose j | SvCreate j _ => j <> i | _ => True end -> as_calls i cb ev = [] ->
    exists p, run c (ep_create time) (flat_map (as_calls i cb) evs ++ as_calls i cb ev) = Ok p /\ (e_open p = true <-> exists fd, holds (k_trace s') i fd)).
  { intros Hev Hc. destruct (other_event s ev s' i I P R E Hev) as [A B]; [congruence|]. rewrite Ha in A. destruct (IH A) as (p & Ep & Ho).
    rewrite Hc, app_nil_r. exists p. split; [exact Ep|]. rewrite Ho. split; intros [f Hf]; exists f; apply B; exact Hf. }
  destruct ev as [j b|j o|j|j|j|j|fd|fd|fd]; try (apply OTHER; [exact Logic.I|reflexivity]).
  - destruct (N.eqb_spec j i) as [->|Hj]; [|apply OTHER; [exact Hj|reflexivity]]. cbn in P.
    rewrite (no_calls i cb evs s H P). cbn. exists (ep_create time). split; [reflexivity|]. cbn. split; [discriminate|]. intros [f Hf]. exfalso.
    cbn in E. injection E as <-. unfold holds in Hf. cbn in Hf. pose proof (held_alive s i f I Hf) as A. destruct (iG s I i) as [b' Hb]; [congruence|]. exact (P b' Hb).
  - destruct (N.eqb_spec j i) as [->|Hj]; [|apply OTHER; [exact Hj|cbn; rewrite (proj2 (N.eqb_neq j i) Hj); reflexivity]].
    destruct (bind_result s i o s' I R E) as (r & tr & Et & Hr).
    assert (A : alive (k_trace s) i = Some cb).
    { cbn in E. unfold sk_bind in E. destruct (sk_close i s) as [s1| |] eqn:E1; try discriminate. cbn [bind] in E.
      assert (E1' : sstep s (SvClose i) = Ok s1) by exact E1. destruct (after_close s i s1 I E1') as (_ & Hal & _). rewrite <- Hal.
      destruct (k_eps s1 i) as [e|]; [|discriminate]. destruct (negb _); [injection E as <-; exact Ha|]. destruct o; injection E as <-; exact Ha. }
    destruct (IH A) as (p & Ep & _). cbn [as_calls]. rewrite N.eqb_refl, run_snoc, Ep. cbn [bind step run_call]. eexists. split; [reflexivity|]. cbn.
    rewrite A in Hr. destruct r as [er|].
    + destruct Hr as [Hr Hno]. assert (X : cb && match o with SkOk _ => true | _ => false end = false).
      { destruct Hr as [[[= ->] _]|[_ ->]]; [reflexivity|apply andb_false_r]. }
      rewrite X. split; [discriminate|]. intros [f Hf]. exfalso. exact (Hno f Hf).
    + destruct Hr as ([= ->] & fd & -> & Hh & _). cbn. split; [intros _; exists fd; exact Hh|reflexivity].
  - destruct (N.eqb_spec j i) as [->|Hj]; [|apply OTHER; [exact Hj|cbn; rewrite (proj2 (N.eqb_neq j i) Hj); reflexivity]].
    destruct (after_close s i s' I E) as (Hno & Hal & _). rewrite Hal in Ha. destruct (IH Ha) as (p & Ep & _).
    cbn [as_calls]. rewrite N.eqb_refl, run_snoc, Ep. cbn. eexists. split; [reflexivity|]. cbn. split; [discriminate|]. intros [f Hf]. exfalso. exact (Hno f Hf).
Qed.
Lemma after_free s i s' : inv s -> sstep s (SvFree i) = Ok s' ->
  alive (k_trace s') i = None /\ (forall f, ~ holds (k_trace s') i f) /\ (forall j, j <> i -> alive (k_trace s') j = alive (k_trace s) j)
  /\ (forall f w, w <> Some i -> (holder (k_trace s') f = Some w <-> holder (k_trace s) f = Some w)) /\ sstep s' (SvFree i) = Ok s'.
Proof.
  intros I E. cbn in E. unfold sk_free in E. destruct (k_eps s i) as [e|] eqn:He.
  - destruct (sk_close i s) as [s1| |] eqn:E1; try discriminate. assert (E1' : sstep s (SvClose i) = Ok s1) by exact E1.
    destruct (after_close s i s1 I E1') as (Hno & Ha & Hh). injection E as <-. cbn. rewrite N.eqb_refl. split; [reflexivity|]. split; [exact Hno|].
    split; [|split; [exact Hh|]].
    + intros j Hj. destruct (N.eqb_spec i j); [congruence|]. apply Ha.
    + unfold sk_free. cbn. rewrite N.eqb_refl. reflexivity.
  - injection E as <-. pose proof (iA s I i) as A. rewrite He in A. split; [exact A|]. split; [|split; [reflexivity|split; [tauto|cbn; unfold sk_free; rewrite He; reflexivity]]].
    intros f Hf. destruct (iC s I i f Hf) as (e & H1 & _). congruence.
Qed.
