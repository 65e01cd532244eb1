(** Concrete cases for C47-C50: a chip of 8 blocks of 4 pages. *)
From stdpp Require Import gmap.
From Verif Require Import Base Bytes Nand Journal MapModel Api Spec Props Refute JSpec JThms JFull.
Local Open Scope Z_scope.

Definition jg : geo := Geo 9 2 8 false.
Definition jweak (b : Z) : bool := (b =? 6) || (b =? 7).
Definition jm (x : Z) : bytes := replicate 132 x.
Definition je (x : Z) : jhop := JO (JEnq (page9 x) (jm x)).
Definition jch (orc : nat -> nop -> event) : nand := Refute.blank jg orc.
Definition jok := jch (fun _ _ => EvOk).
Definition jres (n : nand) (h : list jhop) : list (out jresp) := fst (jrun h (snd (jrestart n))).
(** First byte of the metadata, or a code for other results. *)
Definition jhd (r : out jresp) : out Z :=
  match r with
  | OK (JPage (inr m) _) => OK (nth 0 m 0) | OK JDone => OK (-1) | OK JEmpty => OK (-2)
  | OK (JBool b) => OK (if b then -3 else -4) | OK _ => OK (-5) | ER e => ER e | ST x => ST x
  end.
Lemma j_sup : supported jg. Proof. unfold supported; cbn; lia. Qed.
Lemma j_few : few_weak jg jweak.
Proof.
  intros b. cbn [g_nblk jg].
  assert (Hm : forall i, 0 <= i < 8 -> (b + i) mod 8 = (b mod 8 + i) mod 8) by (intros; by rewrite Zplus_mod_idemp_l).
  pose proof (Z.mod_pos_bound b 8 ltac:(lia)) as Hb. set (r := b mod 8) in *.
  assert (Hw : forall i, 0 <= i < 8 -> (r + i < 6 \/ 8 <= r + i < 14) -> jweak ((b + i) mod 8) = false).
  { intros i Hi Hr. rewrite Hm by done.
    assert ((r + i) mod 8 < 6).
    { destruct Hr; [rewrite Z.mod_small; lia|]. replace (r + i) with (r + i - 8 + 1 * 8) by lia. rewrite Z.mod_add by lia. rewrite Z.mod_small; lia. }
    unfold jweak. rewrite !(proj2 (Z.eqb_neq _ _)) by lia. done. }
  destruct (Z.le_gt_cases r 4).
  - exists 0, 1. split_and!; try lia; apply Hw; lia.
  - exists 3, 4. split_and!; try lia; apply Hw; lia.
Qed.
Lemma j_fresh orc : faults_ok jg jweak orc -> fresh jg jweak (jch orc).
Proof. intros H. by split_and!. Qed.
Lemma j_valid l : Forall (valid_jhop jg) (map je l).
Proof. apply Forall_map, Forall_forall. intros x _. split; [done|]. done. Qed.

(** Enqueue 1, 2, 3, 4, pop, pop, enqueue 5, pop. *)
Definition jh1 : list jhop := map je [1; 2; 3; 4] ++ [JO JPop; JO JPop] ++ map je [5] ++ [JO JPop].
Example jx_run : map jhd (jres jok jh1) = [OK (-1); OK (-1); OK (-1); OK (-1); OK 1; OK 2; OK (-1); OK 3].
Proof. by vm_compute. Qed.
Lemma j_nocrash rs : Forall (fun r => r <> ST Crash) (map jhd rs) -> Forall (fun r => r <> ST Crash) rs.
Proof. intros H. induction rs as [|r rs IH]; [constructor|]. inversion H; subst. constructor; [by intros ->|auto]. Qed.
Example jx_C47 : fifo jg [] jh1 (jres jok jh1).
Proof.
  eapply (C47_fifo jg jweak j_sup j_few jok jh1); [apply j_fresh; by split| | |apply surjective_pairing|].
  - apply Forall_app. split; [apply j_valid|]. by repeat constructor.
  - by repeat constructor.
  - apply j_nocrash. change (fst (jrun jh1 (snd (jrestart jok)))) with (jres jok jh1). rewrite jx_run. by repeat constructor.
Qed.
(** Dropping a result breaks [fifo]. *)
Example jx_fifo_strict : ~ fifo jg [] [je 1; je 2; JO JPop] [OK JDone; OK JDone; OK (JPage (inr (jm 2)) (inr (page9 2)))].
Proof. cbn. intros [[=] _]. Qed.

(** Power is lost during operation 8 of the chip (while page 6 is enqueued). *)
Definition jcrash (k t : nat) (o : nop) : event := if (t =? k)%nat then EvCrash (fun _ => EJunk (Some (replicate 512 90))) else EvOk.
Definition jh2 : list jhop := map je [1; 2; 3; 4; 5; 6] ++ [JO JPop; JO JIsClean; JReset] ++ replicate 4 (JO JPop).
Example jx_run2 : map jhd (jres (jch (jcrash 8)) jh2) =
  [OK (-1); OK (-1); OK (-1); OK (-1); OK (-1); ST Crash; OK 1; OK (-3); OK (-1); OK 1; OK 2; OK 3; OK (-2)].
Proof. by vm_compute. Qed.
Example jx_C48 : let h := map je [1; 2; 3; 4; 5; 6] ++ [JO JPop] in let rs := jres (jch (jcrash 8)) jh2 in
  exists st, jhist jg jempty h (take 7 rs) st /\ sublist (map shown (known (q st))) (drop 9 rs).
Proof.
  cbn zeta. set (rs := jres _ _).
  assert (E : rs = take 7 rs ++ [OK (JBool true); OK JDone] ++ drop 9 rs) by (by vm_compute).
  eapply (C48_clean_is_persistent jg jweak j_sup j_few (jch (jcrash 8)) _ 4 _ _ (snd (jrun jh2 (snd (jrestart (jch (jcrash 8))))))).
  - apply j_fresh. split; intros t; unfold jcrash; by destruct (t =? 8)%nat.
  - apply Forall_app. split; [apply j_valid|by repeat constructor].
  - rewrite <-E. change (map je [1; 2; 3; 4; 5; 6] ++ [JO JPop]) with (map je [1; 2; 3; 4; 5; 6] ++ [JO JPop]).
    rewrite <-app_assoc. apply surjective_pairing.
  - by vm_compute.
  - apply j_nocrash. assert (E1 : map jhd (drop 9 rs) = [OK 1; OK 2; OK 3; OK (-2)]) by (by vm_compute). rewrite E1. by repeat constructor.
  - assert (E1 : last rs = Some (OK JEmpty)) by (by vm_compute).
    rewrite E in E1. rewrite last_app in E1. rewrite last_app in E1.
    destruct (last (drop 9 rs)) eqn:El; [|by vm_compute in El]. injection E1 as ->.
    apply last_Some in El as [l ->]. apply elem_of_app. right. by apply elem_of_list_singleton.
Qed.

(** A page is offered although nothing is in the queue: blocks 6 and 7 cannot be
    erased, so the enqueue after the clear fails, but it has moved the head. *)
Definition jferase (t : nat) (o : nop) : event :=
  match o with OpErase b => if jweak b then EvFail (fun _ => EDone) else EvOk | _ => EvOk end.
Example jx_phantom : map jhd (jres (jch jferase) (map je (map Z.of_nat (seq 1 18)) ++ [JO JClear; je 50; JO JPop; JO JPop])) =
  replicate 19 (OK (-1)) ++ [ER E_JOURNAL_FULL; OK 255; OK (-2)].
Proof. by vm_compute. Qed.

(** ** C49, C50 *)
Definition jh3 : list jhop := map je (map Z.of_nat (seq 1 23)).
Example jx_run3 : jres jok (jh3 ++ [je 99; JO JSize]) = replicate 23 (OK JDone) ++ [ER E_JOURNAL_FULL; OK (JNum 23)].
Proof. by vm_compute. Qed.
Example jx_C49 : (g_nblk jg - 2) * upb jg < 23.
Proof.
  eapply (C49_full_journal jg jweak j_sup j_few jok jh3 (JEnq (page9 99) (jm 99)) (replicate 23 (OK JDone)) 23
    (snd (jrun (jh3 ++ [je 99; JO JSize]) (snd (jrestart jok))))).
  - apply j_fresh. by split.
  - apply j_valid.
  - by split.
  - fold (je 99). rewrite <-jx_run3. apply surjective_pairing.
  - done.
Qed.
Example jx_upb : (g_nblk jg - 2) * upb jg = 18. Proof. done. Qed.

(** Three enqueues from inside a checkpoint group: the second makes it clean. *)
Definition jl : list (bytes * bytes) := map (fun x => (page9 x, jm x)) [2; 3; 4].
Example jx_run4 : jres jok (map je [1] ++ pairs jl) =
  [OK JDone] ++ [OK JDone; OK (JBool false); OK JDone; OK (JBool true); OK JDone; OK (JBool false)].
Proof. by vm_compute. Qed.
Example jx_C50 : OK (JBool true) ∈ [OK JDone; OK (JBool false); OK JDone; OK (JBool true); OK JDone; OK (JBool false)].
Proof.
  eapply (C50_enqueue_cleans jg jweak j_sup j_few jok (map je [1]) jl [OK JDone] _
    (snd (jrun (map je [1] ++ pairs jl) (snd (jrestart jok))))).
  - apply j_fresh. by split.
  - apply j_valid.
  - by repeat constructor.
  - done.
  - rewrite <-jx_run4. apply surjective_pairing.
  - done.
  - repeat constructor; by eexists.
Qed.
