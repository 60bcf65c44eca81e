(** Two replies to one URL (C74). *)
From Coq Require Import ZifyBool ZifyNat.
From Verif Require Import Base BaseProofs BytesModel BytesProofs StrModel BoxSpec ConfigModel ConfigProofs
  ProxyModel ProxySpec ProxyTheory MediaTheory HttpModel HttpSpec HttpProofs HttpTheory EndSpec EndTheory CacheSpec CacheProofs.
Local Open Scope string_scope.
Open Scope Z_scope.

Lemma C74_same_reply_partial_pf : forall limit s r now1 now2 sid1 sid2 history1 history2 c rp1 rp2,
  site_ok s -> Forall fixed_part (path_parts r) ->
  provider_config s r now1 = Ok c -> media_ext c -> quiet c (py_int_of_Q now1) -> quiet c (py_int_of_Q now2) ->
  fst (application limit s r now1 sid1 (run limit s history1 [])) = Ok rp1 -> delivered rp1 ->
  fst (application limit s r now2 sid2 (run limit s history2 [])) = Ok rp2 -> delivered rp2 ->
  rp1 = rp2.
Proof.
  intros limit s r now1 now2 sid1 sid2 history1 history2 c rp1 rp2 SK F P ME Q1 Q2 H1 D1 H2 D2.
  apply application_content in H1; [|exact D1]. apply application_content in H2; [|exact D2].
  destruct (provider_wf _ _ _ _ SK P) as (_ & EL).
  eapply content_reply_same; eauto.
Qed.

(** Segment 14 (seconds 84 to 90) of a session that is prolonged after two
    minutes: in second 95, and in second 110, when another end is announced. *)
Ltac fixed_tac :=
  match goal with |- Forall fixed_part (path_parts ?r) =>
    let x := eval vm_compute in (path_parts r) in change (path_parts r) with x end;
  repeat match goal with |- Forall _ (_ :: _) => apply Forall_cons end; [..|apply Forall_nil];
  intros k v E I; unfold moving_keys in I; cbn [In] in I;
  destruct I as [I|[I|[I|[I|[I|[]]]]]]; subst k; discriminate E.
Example C74_same_reply_case :
  let r := ex_request "/livesim/start_0/dur_120/dur_120/testpic/V2/14.m4s" None in
  site_ok two_site /\ Forall fixed_part (path_parts r) /\
  exists c c2 rp, provider_config two_site r 95 = Ok c /\ provider_config two_site r 110 = Ok c2 /\ c_aet c <> c_aet c2 /\
    media_ext c /\ quiet c 95 /\ quiet c 110 /\
    fst (application 0 two_site r 95 "" []) = Ok rp /\ delivered rp /\
    fst (application 0 two_site r 110 "" []) = Ok rp.
Proof.
  cbn zeta. split; [exact two_site_ok|]. split; [fixed_tac|].
  do 3 eexists. split; [vm_compute; reflexivity|]. split; [vm_compute; reflexivity|]. split; [vm_compute; discriminate|].
  split; [left; reflexivity|]. split; [intros u; discriminate|]. split; [intros u; discriminate|].
  split; [vm_compute; reflexivity|]. split; [left; reflexivity|]. vm_compute. reflexivity.
Qed.

(** baseurl_u20_d10: in second 200, the last one before the server goes down,
    segment 31 has an event box that it did not have in second 199. *)
Lemma C74_going_down_refuted_pf : exists s r now1 now2 c rp1 rp2,
  site_ok s /\ Forall fixed_part (path_parts r) /\ provider_config s r now1 = Ok c /\ media_ext c /\
  fst (application 0 s r now1 "" []) = Ok rp1 /\ delivered rp1 /\
  fst (application 0 s r now2 "" []) = Ok rp2 /\ delivered rp2 /\
  quiet c (py_int_of_Q now1) /\ rp_body rp1 <> rp_body rp2.
Proof.
  exists two_site, (ex_request "/livesim/baseurl_u20_d10/testpic/V2/31.m4s" None), 199%Q, 200%Q.
  do 3 eexists. split; [exact two_site_ok|]. split; [fixed_tac|]. split; [vm_compute; reflexivity|].
  split; [left; reflexivity|]. split; [vm_compute; reflexivity|]. split; [left; reflexivity|].
  split; [vm_compute; reflexivity|]. split; [left; reflexivity|].
  split; [|vm_compute; discriminate].
  intros u E. apply (gd_up_first _ _ 20 10); [reflexivity|lia|lia|lia|].
  split; [discriminate|]. intros (k & K & EQ). change (py_int_of_Q 199 mod 60) with 19 in EQ. lia.
Qed.
