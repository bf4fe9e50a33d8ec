(* PfcpMemProofs.v -- the IE structs of pfcp_ies_custom.h hold every value that their decoders return *)
From Coq Require Import String Ascii.
From Verif Require Import Base BaseProofs GtlvModel DecEncModel CStr IesModel IesSpec IesProofs TablesModel StrModel MemModel MemSpec MemProofs MemEncProofs MemTest GenModel GenPfcp PfcpMem.
Local Open Scope string_scope.
Local Open Scope N_scope.
Local Open Scope list_scope.

(* ---------------------------------------------------------------- pieces of a concatenation *)
Lemma get_skip o n (a b : list N) : lenN a <= o -> get_at o n (a ++ b) = get_at (o - lenN a) n b.
Proof.
  intros H. unfold get_at. f_equal. replace o with (lenN a + (o - lenN a)) at 1 by lia. unfold dropN, lenN in *.
  rewrite skipn_app. rewrite skipn_all2 by lia. cbn [app]. f_equal. lia.
Qed.
Lemma get_here n (a b : list N) : lenN a = n -> get_at 0 n (a ++ b) = a.
Proof. intros <-. unfold get_at. change (dropN 0 (a ++ b)) with (a ++ b). apply takeN_app. Qed.
Lemma get_all n (a : list N) : lenN a = n -> get_at 0 n a = a.
Proof. intros <-. unfold get_at. change (dropN 0 a) with a. unfold takeN, lenN. rewrite Nat2N.id. apply firstn_all. Qed.
Lemma z_len n : lenN (z n) = n.
Proof. unfold z, lenN. rewrite zeros_length. lia. Qed.

Section H.
Variable be : bool.
Lemma n2y_len n x : lenN (n2y be n x) = N.of_nat n.
Proof. unfold n2y. destruct be; [|unfold lenN; rewrite rev_length; fold (lenN (be_put n x))]; apply be_put_lenN. Qed.
Lemma y2n_n2y n x : x < 256 ^ N.of_nat n -> y2n be (n2y be n x) = x.
Proof. intros H. unfold n2y, y2n. destruct be; [|rewrite rev_involutive]; apply be_get_put; exact H. Qed.
Lemma b2y_len b : lenN (b2y b) = 1.
Proof. destruct b; reflexivity. Qed.

Definition sa_ok (x : sa) : Prop :=
  match x with SaUnspec => True | Sa4 a p => lenN a = 4 /\ p < 65536 | Sa6 a p => lenN a = 16 /\ p < 65536 end.
Definition ia_ok (a : ip_addrs) : Prop := sa_ok (ia_v4 a) /\ sa_ok (ia_v6 a).
Lemma sa_mem_len x : sa_ok x -> lenN (sa_mem be x) = 128.
Proof.
  destruct x as [|a p|a p]; cbn [sa_mem sa_ok]; [intros _; apply z_len|intros [H _]|intros [H _]];
  rewrite !lenN_app, n2y_len, be_put_lenN, !z_len, H; reflexivity.
Qed.
End H.


Lemma get_skip2 k o n (a b : list N) : lenN a = k -> k <= o -> get_at o n (a ++ b) = get_at (o - k) n b.
Proof. intros <-. apply get_skip. Qed.
Ltac len_of a :=
  match a with
  | z ?n => n
  | n2y _ ?m _ => let r := eval vm_compute in (N.of_nat m) in r
  | be_put ?m _ => let r := eval vm_compute in (N.of_nat m) in r
  | b2y _ => constr:(1)
  | [_] => constr:(1)
  | sa_mem _ _ => constr:(128)
  | ia_mem _ _ => constr:(272)
  | _ => match goal with H : lenN a = ?n |- _ => n end
  end.
Ltac len_ok := first [ assumption | apply z_len | apply n2y_len | apply be_put_lenN | apply b2y_len | apply sa_mem_len; assumption | reflexivity ].
Ltac pick :=
  repeat match goal with
         | |- context [get_at 0 ?n (?a ++ ?b)] => rewrite (get_here n a b) by len_ok
         | |- context [get_at ?o ?n (?a ++ ?b)] =>
             let k := len_of a in
             let o' := eval vm_compute in (o - k) in
             rewrite (get_skip2 k o n a b) by (len_ok || (vm_compute; discriminate)); change (o - k) with o'
         end.

Section H2.
Variable be : bool.
Lemma sa_val_mem x : sa_ok x -> sa_val be (sa_mem be x) = x.
Proof.
  destruct x as [|a p|a p]; cbn [sa_mem sa_ok].
  - intros _. destruct be; vm_compute; reflexivity.
  - intros [Ha Hp]. unfold sa_val. cbv zeta. pick. rewrite y2n_n2y by reflexivity. change (2 =? 2) with true. cbv iota.
    rewrite be_get_put by exact Hp. reflexivity.
  - intros [Ha Hp]. unfold sa_val. cbv zeta. pick. rewrite y2n_n2y by reflexivity. change (10 =? 2) with false. change (10 =? 10) with true. cbv iota.
    rewrite be_get_put by exact Hp. reflexivity.
Qed.
Lemma ia_mem_len a : ia_ok a -> lenN (ia_mem be a) = 272.
Proof. intros [H4 H6]. unfold ia_mem. rewrite !lenN_app, !b2y_len, !z_len, !sa_mem_len by assumption. reflexivity. Qed.
Lemma ia_val_mem a : ia_ok a -> ia_val be (ia_mem be a) = a.
Proof.
  intros [H4 H6]. unfold ia_val, ia_mem. pick. rewrite (get_all 128 (sa_mem be (ia_v6 a))) by (apply sa_mem_len; exact H6).
  rewrite !y2b_b2y, !sa_val_mem by assumption. destruct a; reflexivity.
Qed.
End H2.
Ltac len_ok ::= first [ assumption | apply z_len | apply n2y_len | apply be_put_lenN | apply b2y_len | apply sa_mem_len; assumption | apply ia_mem_len; assumption | reflexivity ].
Ltac lens := rewrite ?lenN_app, ?n2y_len, ?be_put_lenN, ?z_len, ?b2y_len, ?sa_mem_len, ?ia_mem_len by assumption.

Lemma valid_ia a : valid_addrs a -> ia_ok a.
Proof.
  intros [H4 H6]. split; [destruct (ia_v4p a)|destruct (ia_v6p a)]; rewrite ?H4, ?H6; cbn [sa_ok]; auto.
  - destruct H4 as (x & -> & L & _). cbn [sa_ok]. split; [unfold lenN; rewrite L; reflexivity|reflexivity].
  - destruct H6 as (x & -> & L & _). cbn [sa_ok]. split; [unfold lenN; rewrite L; reflexivity|reflexivity].
Qed.
Lemma carr_len n s : lenN s <= n -> lenN (carr n s) = n.
Proof. intros H. unfold carr. rewrite lenN_app, z_len. lia. Qed.
Lemma c_str_carr n s : lenN s < n -> Forall (fun b => b <> 0) s -> c_str (carr n s) = s.
Proof.
  intros H HF. unfold carr, z. replace (N.to_nat (n - lenN s)) with (S (N.to_nat (n - lenN s - 1))) by lia. cbn [Base.zeros]. apply c_str_app. exact HF.
Qed.
Lemma num_ok be n old v x : v = IvNum x -> x < 256 ^ N.of_nat n ->
  lenN (cd_put (num_codec be n) old v) = cd_size (num_codec be n) /\ cd_get (num_codec be n) (cd_put (num_codec be n) old v) = v.
Proof. intros -> H. cbn [num_codec cd_put cd_size cd_get]. split; [apply n2y_len|]. rewrite y2n_n2y by exact H. reflexivity. Qed.
Lemma nonzero_chars s : Forall (fun b => 0 < b < 256) s -> Forall (fun b => b <> 0) s.
Proof. apply Forall_impl. intros b. lia. Qed.

Lemma opt_num_lt p x b b' : opt_num p x b -> b <= b' -> 0 < b' -> x < b'.
Proof. unfold opt_num. destruct p; intros H1 H2 H3; lia. Qed.

Lemma p_codec_ok be k : codec_ok (p_codec be k) (leaf_of k).
Proof.
  unfold codec_ok. cbn [leaf_of lf_dec]. intros old m len v HL HZ B H.
  assert (B1 : forall n y, rd_be n m = Ok y -> y < 256 ^ n) by (intros n y; apply rd_be_bytes, B).
  destruct k; cbn [dec_of] in H;
  unfold dec_cause, dec_offending_ie, dec_8, dec_16be, dec_32be, dec_3gpp_iface_type, dec_iface, dec_up_ff, dec_cp_ff,
    dec_f_seid, dec_f_teid, dec_apply_action, dec_bits_padded, dec_ohr, dec_ue_ip, dec_network_inst, dec_node_id, dec_ohc, dec_act_predef in H; cbn [p_codec].
  - repeat inv_bind H. injection H as <-. apply B1 in E0. eapply num_ok; [reflexivity|]. eapply N.lt_le_trans; [exact E0|vm_compute; discriminate].
  - repeat inv_bind H. injection H as <-. apply B1 in E0. eapply num_ok; [reflexivity|]. eapply N.lt_le_trans; [exact E0|vm_compute; discriminate].
  - repeat inv_bind H. injection H as <-. apply B1 in E0. eapply num_ok; [reflexivity|]. eapply N.lt_le_trans; [exact E0|vm_compute; discriminate].
  - repeat inv_bind H. injection H as <-. apply B1 in E0. eapply num_ok; [reflexivity|]. eapply N.lt_le_trans; [exact E0|vm_compute; discriminate].
  - repeat inv_bind H. injection H as <-. apply B1 in E0. eapply num_ok; [reflexivity|]. eapply N.lt_le_trans; [exact E0|vm_compute; discriminate].
  - repeat inv_bind H. injection H as <-. eapply num_ok; [reflexivity|]. change (256 ^ N.of_nat 4) with 4294967296. lia.
  - repeat inv_bind H. injection H as <-. eapply num_ok; [reflexivity|]. change (256 ^ N.of_nat 4) with 4294967296. lia.
  - repeat inv_bind H. injection H as <-. eapply num_ok; [reflexivity|]. change (256 ^ N.of_nat 4) with 4294967296. lia.
  - (* node id *)
    cbn [cd_size cd_put cd_get]. do 3 inv_bind H.
    + do 2 inv_bind H. injection H as <-. unfold at_ofs in E3. apply rdN_bytes in E3; [|apply bytes_ok_dropN, B].
      destruct E3 as [Ba La]. destruct (N.eqb_spec (len - 1) 4) as [L|L]; [|discriminate E2]. rewrite L in La.
      assert (S : sa_ok (sa_from_octets x0)) by (unfold sa_from_octets; rewrite La; exact (conj La eq_refl)). split; [lens; reflexivity|].
      cbv zeta. pick. rewrite y2n_n2y, sa_val_mem by (assumption || reflexivity). reflexivity.
    + inv_bind H.
      * do 2 inv_bind H. injection H as <-. unfold at_ofs in E4. apply rdN_bytes in E4; [|apply bytes_ok_dropN, B].
        destruct E4 as [Ba La]. destruct (N.eqb_spec (len - 1) 16) as [L|L]; [|discriminate E3]. rewrite L in La.
        assert (S : sa_ok (sa_from_octets x0)) by (unfold sa_from_octets; rewrite La; exact (conj La eq_refl)). split; [lens; reflexivity|].
        cbv zeta. pick. rewrite y2n_n2y, sa_val_mem by (assumption || reflexivity). reflexivity.
      * inv_bind H. inv_bind H. inv_bind H. destruct x0 as [s|]; [|discriminate]. injection H as <-.
        apply dec_name_valid in E5; [|apply bytes_ok_dropN, B|lia]. destruct E5 as [Hs Hl].
        assert (LC : lenN (carr 254 s) = 254) by (apply carr_len; lia). split; [lens; rewrite LC; reflexivity|].
        cbv zeta. pick. rewrite y2n_n2y by reflexivity. rewrite c_str_carr by (lia || apply nonzero_chars; exact Hs). reflexivity.
  - cbn [bits_codec cd_size cd_put cd_get]. repeat inv_bind H. injection H as <-. apply rdN_bytes in E; [|exact B]. destruct E as [Bb L].
    split; [|reflexivity]. rewrite lenN_app. unfold lenN at 2. rewrite zeros_length, L. lia.
  - cbn [bits_codec cd_size cd_put cd_get]. repeat inv_bind H. injection H as <-. apply rdN_bytes in E0; [|exact B]. destruct E0 as [Bb L]. split; [exact L|reflexivity].
  - cbn [cd_size cd_put cd_get]. repeat inv_bind H. injection H as <-. destruct x1 as [a o]. cbn [fst fs_seid fs_addr].
    apply dec_addrs_valid in E2; [|exact B]. unfold at_ofs in E1. apply rdN_bytes in E1; [|apply bytes_ok_dropN, B]. destruct E1 as [Bs Ls].
    destruct E2 as [Ha _]. apply valid_ia in Ha. apply be_get_bound in Bs. rewrite Ls in Bs. split; [lens; reflexivity|].
    pick. rewrite y2n_n2y by exact Bs. rewrite (get_all 272) by len_ok. rewrite ia_val_mem by exact Ha. reflexivity.
  - cbn [cd_size cd_put cd_get]. repeat inv_bind H; injection H as <-.
    + destruct x1 as [a o]. cbn [fst]. apply take_bytes in E1; [|exact B]. destruct E1 as [Bs Ls]. apply dec_addrs_valid in E2; [|exact B].
      destruct E2 as [Ha _]. apply valid_ia in Ha. apply be_get_bound in Bs. rewrite Ls in Bs. split; [lens; reflexivity|].
      pick. rewrite y2b_b2y, y2n_n2y by exact Bs. rewrite (get_all 272) by len_ok. rewrite ia_val_mem by exact Ha. reflexivity.
    + apply take_bytes in E2; [|exact B]. destruct E2 as [Bs Ls]. split; [lens; reflexivity|]. pick. rewrite !y2b_b2y. cbn [be_get fold_left]. unfold be_get. cbn [fold_left]. repeat f_equal; lia.
    + split; [lens; reflexivity|]. pick. rewrite !y2b_b2y. reflexivity.
  - cbn [bits_codec cd_size cd_put cd_get]. repeat inv_bind H. injection H as <-. apply rdN_bytes in E0; [|exact B]. destruct E0 as [Bb L].
    split; [|reflexivity]. rewrite lenN_app. unfold lenN at 2. rewrite zeros_length, L. lia.
  - cbn [str_codec cd_size cd_put cd_get]. do 2 inv_bind H. destruct x as [s|]; [|discriminate]. injection H as <-.
    apply dec_name_valid in E0; [|exact B|lia]. destruct E0 as [Hs Hl]. split; [apply carr_len; lia|].
    rewrite c_str_carr by (lia || apply nonzero_chars; exact Hs). reflexivity.
  - cbn [cd_size cd_put cd_get]. do 2 inv_bind H. apply rdN_bytes in E0; [|exact B]. destruct E0 as [Bd Ld].
    inv_bind H. destruct x0 as [[[[[tp v4] v6] pp] cp] sp].
    inv_bind H. destruct x0 as [t ot]. cbn [fst snd] in *.
    inv_bind H. destruct x0 as [a oa]. cbn [fst snd] in *. inv_bind H. destruct x0 as [p op]. cbn [fst snd] in *.
    inv_bind H. destruct x0 as [cc oc]. cbn [fst snd] in *. inv_bind H. destruct x0 as [ss os]. cbn [fst snd] in *.
    injection H as <-. apply dec_addrs_valid in E2; [|exact B]. destruct E2 as (Ha & _). apply valid_ia in Ha.
    apply dec_opt_valid in E1, E3, E4, E5; try exact B.
    apply opt_num_lt with (b' := 256 ^ 4) in E1; [|vm_compute; discriminate|reflexivity].
    apply opt_num_lt with (b' := 256 ^ 2) in E3; [|vm_compute; discriminate|reflexivity].
    apply opt_num_lt with (b' := 256 ^ 4) in E4; [|vm_compute; discriminate|reflexivity].
    apply opt_num_lt with (b' := 256 ^ 4) in E5; [|vm_compute; discriminate|reflexivity].
    cbn [oh_desc oh_teidp oh_teid oh_addr oh_portp oh_port oh_ctagp oh_ctag oh_stagp oh_stag]. split; [lens; rewrite Ld; reflexivity|].
    pick. rewrite !y2b_b2y, !y2n_n2y by assumption. rewrite ia_val_mem by exact Ha. reflexivity.
  - cbn [str_codec cd_size cd_put cd_get]. inv_bind H. injection H as <-. apply strlcpy_spec in E; [|lia]. destruct E as [Hl Hs].
    split; [apply carr_len; lia|]. rewrite c_str_carr by (lia || exact Hs). reflexivity.
  - cbn [cd_size cd_put cd_get]. repeat inv_bind H; injection H as <-; cbn [or_desc or_extp or_ext]; apply B1 in E0.
    + unfold at_ofs in E2. apply rdN_bytes in E2; [|apply bytes_ok_dropN, B]. destruct E2 as [Bb L]. split; [lens; rewrite L; reflexivity|].
      pick. rewrite y2b_b2y, y2n_n2y; [reflexivity|]. eapply N.lt_le_trans; [exact E0|vm_compute; discriminate].
    + split; [lens; reflexivity|].
      pick. rewrite y2b_b2y, y2n_n2y; [reflexivity|]. eapply N.lt_le_trans; [exact E0|vm_compute; discriminate].
  - cbn [cd_size cd_put cd_get]. repeat inv_bind H. injection H as <-. destruct x0 as [a oa], x1 as [d od], x2 as [p op]. cbn [fst snd] in *.
    cbn [ue_chv6 ue_chv4 ue_dest ue_addr ue_delegp ue_deleg ue_plenp ue_plen].
    apply dec_addrs_valid in E0; [|exact B]. destruct E0 as [Ha _]. apply valid_ia in Ha. split; [lens; reflexivity|].
    pick. rewrite !y2b_b2y, ia_val_mem by exact Ha. unfold be_get. cbn [fold_left]. repeat f_equal; lia.
Qed.
