(* IeMemStr.v -- strings stored to memory by the decoders of pfcp_ies_custom.c *)
From Coq Require Import String Ascii.
From Verif Require Import Base BaseProofs GtlvModel DecEncModel DecEncProofs CStr IesModel IesSpec IesProofs TablesModel StrModel MemModel MemSpec MemProofs MemTest GenModel GenProofs GenPfcp PfcpMem PfcpMemProofs IeMemModel IeMemProofs.
Local Open Scope string_scope.
Local Open Scope N_scope.
Local Open Scope list_scope.

(* ---------------------------------------------------------------- reading back *)
Lemma get_app_at a x y (m : list N) : get_at a (x + y) m = get_at a x m ++ get_at (a + x) y m.
Proof.
  unfold get_at. rewrite <- dropN_dropN. generalize (dropN a m). intros l. unfold takeN, dropN. rewrite N2Nat.inj_add.
  rewrite <- (firstn_skipn (N.to_nat x) (firstn (N.to_nat x + N.to_nat y) l)) at 1. rewrite firstn_firstn, skipn_firstn_comm.
  f_equal; f_equal; lia.
Qed.
Lemma zeros_snoc n : Base.zeros n ++ [0] = 0 :: Base.zeros n.
Proof. induction n as [|n IH]; [reflexivity|]. cbn [Base.zeros app]. rewrite IH. reflexivity. Qed.
Lemma zeros_rev n : rev (Base.zeros n) = Base.zeros n.
Proof. induction n as [|n IH]; [reflexivity|]. cbn [Base.zeros rev]. rewrite IH. apply zeros_snoc. Qed.
Lemma be_get_zeros n : be_get (Base.zeros n) = 0.
Proof. unfold be_get. induction n as [|n IH]; [reflexivity|]. exact IH. Qed.

Lemma zeros_plus a b : Base.zeros (a + b) = Base.zeros a ++ Base.zeros b.
Proof. induction a as [|a IH]; [reflexivity|]. cbn [Base.zeros Nat.add app]. rewrite IH. reflexivity. Qed.
Lemma zeros_zero n : Forall (fun b => b = 0) (Base.zeros n).
Proof. induction n; constructor; auto. Qed.
Lemma zeros_lenN n : lenN (Base.zeros (N.to_nat n)) = n.
Proof. unfold lenN. rewrite zeros_length. lia. Qed.
Lemma app_inj_len {A} (a b c d : list A) : length a = length c -> a ++ b = c ++ d -> b = d.
Proof. revert c. induction a as [|x a IH]; intros [|y c] L E; try discriminate L; [exact E|]. injection E as _ E. injection L as L. exact (IH c L E). Qed.

(* ---------------------------------------------------------------- strings *)
Lemma c_str_cstr l : c_str l = cstr l.
Proof. induction l as [|b l IH]; [reflexivity|]. cbn [c_str cstr]. rewrite IH. reflexivity. Qed.
Lemma cstr_nul s l : cstr (s ++ 0 :: l) = cstr s.
Proof. induction s as [|b s IH]; [reflexivity|]. cbn [app cstr]. rewrite IH. reflexivity. Qed.
Lemma held_str o n mem s : lenN s + 1 <= n -> get_at o (lenN s + 1) mem = s ++ [0] -> c_str (get_at o n mem) = cstr s.
Proof.
  intros H G. replace n with (lenN s + 1 + (n - (lenN s + 1))) by lia. rewrite get_app_at, G, <- app_assoc, c_str_cstr. apply cstr_nul.
Qed.
Lemma cstr_nonzero s : Forall (fun b => b <> 0) s -> cstr s = s.
Proof. induction 1 as [|b s Hb Hs IH]; [reflexivity|]. cbn [cstr]. destruct (N.eqb_spec b 0); [contradiction|]. rewrite IH. reflexivity. Qed.
Lemma ref_map {A B D} S (c : mm A) mem (r : res B) (g : B -> res D) P Q : ref S c mem r P -> (forall mem' a b, lenN mem' = S -> P mem' a b -> exists d, g b = Ok d /\ Q mem' a d) -> ref S c mem (bind r g) Q.
Proof.
  intros H K. destruct r as [b|e|u]; cbn [bind]; [|exact H|exact I]. destruct H as (mem' & a & E & L & HP). destruct (K _ _ _ L HP) as (d & -> & HQ). exists mem', a. auto.
Qed.
(* osmo_apn_to_str() *)
Lemma ref_apn S fin fuel : fin <= S -> forall a m rest mem, lenN mem = S -> a + N.max rest 1 <= fin ->
  ref S (c_apn fuel a m rest) mem (apn_to_str fuel m rest)
    (fun mem' ok r => match r with
       | None => ok = false
       | Some s => ok = true /\ a + lenN s + 1 <= fin /\ get_at a (lenN s + 1) mem' = s ++ [0] /\ forall o n, o + n <= a -> get_at o n mem' = get_at o n mem
       end).
Proof.
  intros HF. induction fuel as [|f IH]; intros a m rest mem L H; [exact I|]. cbn [c_apn apn_to_str].
  assert (NUL : ref S (_ <~ wr a [0];; ret true) mem (Ok (Some [])) (fun mem' ok r => match r with None => ok = false
       | Some s => ok = true /\ a + lenN s + 1 <= fin /\ get_at a (lenN s + 1) mem' = s ++ [0] /\ forall o n, o + n <= a -> get_at o n mem' = get_at o n mem end)).
  { apply ref_wr; [exact L|change (lenN [0]) with 1; lia|]. change (lenN [0]) with 1. intros mem1 L1 V1 F1. apply ref_ret; [exact L1|]. split; [reflexivity|]. change (lenN []) with 0.
    split; [lia|]. split; [exact V1|]. intros o n Ho. apply F1; lia. }
  destruct (N.eqb_spec rest 0) as [R|R]; [exact NUL|]. destruct m as [|lab m']; [exact I|]. destruct (N.eqb_spec lab 0) as [E0|E0]; [exact NUL|].
  destruct (N.ltb_spec rest (lab + 1)) as [RL|RL]; [apply ref_ret; [exact L|reflexivity]|]. clear NUL.
  unfold rdN. destruct (lab <=? lenN m') eqn:EL; cbn [bind]; [|exact I]. apply N.leb_le in EL. eapply ref_skip; [reflexivity|].
  pose proof (lenN_takeN lab m' EL) as LT. apply ref_wr; [exact L|lia|]. rewrite LT. intros mem1 L1 V1 F1.
  destruct (N.eqb_spec (rest - (lab + 1)) 0) as [R1|R1].
  - eapply ref_map; [apply (IH (a + lab)); [exact L1|lia]|]. intros mem2 ok [s|] L2 HQ; cbv beta iota in HQ; [|eexists; split; [reflexivity|exact HQ]].
    destruct HQ as (-> & B & G & F). eexists. split; [reflexivity|]. cbv beta iota. split; [reflexivity|]. cbn [app]. rewrite lenN_app, LT. split; [lia|]. split.
    + replace (lab + lenN s + 1) with (lab + (lenN s + 1)) by lia. rewrite get_app_at, G, <- app_assoc. f_equal. rewrite F by lia. exact V1.
    + intros o n Ho. rewrite F by lia. apply F1; lia.
  - apply ref_wr; [exact L1|change (lenN [46]) with 1; lia|]. change (lenN [46]) with 1. intros mem2 L2 V2 F2.
    eapply ref_map; [apply (IH (a + lab + 1)); [exact L2|lia]|]. intros mem3 ok [s|] L3 HQ; cbv beta iota in HQ; [|eexists; split; [reflexivity|exact HQ]].
    destruct HQ as (-> & B & G & F). eexists. split; [reflexivity|]. cbv beta iota. split; [reflexivity|]. rewrite !lenN_app, LT. change (lenN [46]) with 1. split; [lia|]. split.
    + replace (lab + (1 + lenN s) + 1) with (lab + (1 + (lenN s + 1))) by lia. rewrite get_app_at, get_app_at, G, <- !app_assoc. f_equal.
      * rewrite F by lia. rewrite F2 by lia. exact V1.
      * f_equal. rewrite F by lia. exact V2.
    + intros o n Ho. rewrite F by lia. rewrite F2 by lia. apply F1; lia.
Qed.
Lemma ref_name {D} sz o m len arr mem (g : option (list N) -> res D) (f : bool -> mm unit) Q : lenN mem = sz -> 1 <= len -> len <= arr -> o + arr <= sz ->
  (forall mem' ok r, lenN mem' = sz -> match r with None => ok = false | Some s => ok = true /\ c_str (get_at o arr mem') = s /\ forall o' n, o' + n <= o -> get_at o' n mem' = get_at o' n mem end ->
     ref sz (f ok) mem' (g r) Q) ->
  ref sz (ok <~ c_apn (S (N.to_nat len)) o m len ;; f ok) mem (bind (dec_name m len arr) g) Q.
Proof.
  intros L H1 HA HO HK. unfold dec_name. generalize (S (N.to_nat len)). intros fuel.
  replace (bind (bind (apn_to_str fuel m len) _) g) with
    (bind (apn_to_str fuel m len) (fun r => bind (match r with None => Ok None | Some s => if arr <? lenN s + 1 then UB OobWrite else Ok (Some (cstr s)) end) g)) by (destruct (apn_to_str fuel m len); reflexivity).
  eapply ref_bind; [apply (ref_apn sz (o + arr) fuel HO o m len mem L); lia|]. intros mem' ok [s|] L' _ HQ; cbv beta iota in HQ.
  - destruct HQ as (-> & B & G & F). destruct (N.ltb_spec arr (lenN s + 1)); [exact I|]. cbn [bind]. apply HK; [exact L'|]. split; [reflexivity|]. split; [apply held_str; [lia|exact G]|exact F].
  - cbn [bind]. apply HK; [exact L'|exact HQ].
Qed.
