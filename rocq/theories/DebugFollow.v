(** Proofs for C91 and C92: how [does] goes through a function. *)
From Verif Require Import Base CStr FlagModel LogModel LogSpec LogProofs LogHist LogProps DebugModel DebugSpec.
Local Open Scope Z_scope.

Lemma used_inv w G g : log_used w G g -> linv w G g.
Proof.
  induction 1 as [|w G g o c w' G' _ Hi Hc Hg E Ha|w G g s b _ Hi|w G g s _ Hi]; [apply linv_start|by eapply step_inv|by apply linv_tr..].
Qed.
Lemma history_used w G g : log_history w G g -> log_used w G g.
Proof. induction 1; [constructor|by eapply lu_call]. Qed.

Lemma told_app o on ns1 ns2 tr G tr1 G1 tr2 G2 : told o on ns1 tr G tr1 G1 -> told o on ns2 tr1 G1 tr2 G2 -> told o on (ns1 ++ ns2) tr G tr2 G2.
Proof. induction 1; intros H2; cbn [app]; [done|eapply told_off|eapply told_log|eapply told_stdout|eapply told_prints|eapply told_flushes|eapply told_warns|eapply told_perror]; eauto. Qed.

Section does.
Context (o : system) (on : bool).

Lemma does_lift {A} (r : res A) : does o on (lift r) r [].
Proof. intros w G g Hw Hg. destruct r as [a| | | |]; try done. exists w, G. split; [done|]. split; [done|]. constructor. Qed.
Lemma does_ret {A} (a : A) : does o on (ret a) (Ret a) [].
Proof. exact (does_lift (Ret a)). Qed.
Lemma does_bind {A B} (m : M A) (f : A -> M B) r (k : A -> res B) n1 n2 ns :
  does o on m r n1 -> (forall a, r = Ret a -> does o on (f a) (k a) (n2 a)) -> (forall a, r = Ret a -> ns = n1 ++ n2 a) ->
  does o on (bind m f) (mbind k r) ns.
Proof.
  intros H1 H2 Hn w G g Hw Hg. specialize (H1 w G g Hw Hg). destruct r as [a| | | |]; cbn [mbind res_bind]; try (unfold bind; by rewrite H1).
  destruct H1 as (w1 & G1 & E1 & Hw1 & T1). specialize (H2 a eq_refl w1 G1 g Hw1 Hg). rewrite (bind_go _ _ _ _ _ E1).
  destruct (k a) as [b| | | |]; try done. destruct H2 as (w2 & G2 & E2 & Hw2 & T2). exists w2, G2. split; [done|]. split; [done|].
  rewrite (Hn a eq_refl). by eapply told_app.
Qed.
Lemma does_lift_bind {A B} (r : res A) (f : A -> M B) (k : A -> res B) ns :
  (forall a, r = Ret a -> does o on (f a) (k a) ns) -> does o on (bind (lift r) f) (mbind k r) ns.
Proof. intros H. eapply (does_bind _ _ _ _ [] (fun _ => ns)); [apply does_lift|exact H|done]. Qed.
Lemma does_pure {A B} (a : A) (f : A -> M B) (k : res B) ns : does o on (f a) k ns -> does o on (bind (lift (Ret a)) f) k ns.
Proof. intros H. exact H. Qed.
(** a part without a result *)
Lemma does_seq {B} (m : M unit) (f : M B) (k : res B) n1 n2 :
  does o on m (Ret tt) n1 -> does o on f k n2 -> does o on (bind m (fun _ => f)) k (n1 ++ n2).
Proof. intros H1 H2. eapply (does_bind m (fun _ => f) (Ret tt) (fun _ => k) n1 (fun _ => n2)); [done..]. Qed.
Lemma does_last {A} (m : M A) r n1 (f : A -> M A) : does o on m r n1 -> (forall a, f a = ret a) -> does o on (bind m f) r n1.
Proof.
  intros H Hf. replace r with (mbind Ret r) by (by destruct r).
  eapply (does_bind _ _ _ _ n1 (fun _ => [])); [done| |intros; by rewrite app_nil_r]. intros a _. rewrite Hf. apply does_ret.
Qed.
Lemma does_print s b : does o on (emit (EPrint s b)) (Ret tt) [Prints s b].
Proof. intros w G g Hw Hg. exists (tr_app w [EPrint s b]), G. split; [done|]. split; [by constructor|]. apply told_prints, told_nil. Qed.
Lemma does_flush s : does o on (emit (EFlush s)) (Ret tt) [Flushes s].
Proof. intros w G g Hw Hg. exists (tr_app w [EFlush s]), G. split; [done|]. split; [by constructor|]. apply told_flushes, told_nil. Qed.
Lemma does_prints s b n : does o on (emits (replicate n (EPrint s b))) (Ret tt) (replicate n (Prints s b)).
Proof.
  induction n as [|n IH]; [apply does_ret|]. cbn [replicate emits]. change (Prints s b :: replicate n (Prints s b)) with ([Prints s b] ++ replicate n (Prints s b)).
  apply does_seq; [apply does_print|exact IH].
Qed.
Lemma does_warn r m : lets_write o -> does o on (warn o r m) (Ret tt) [Warns r m].
Proof.
  intros Ho w G g Hw Hg. pose proof (used_inv _ _ _ Hw) as Hi. set (o' := o (ltr w)).
  destruct (err_warning_ok o' w G g r m Hi (Ho _ _)) as (w' & E & _ & T). exists w', (after_message o' G). split; [done|]. split.
  - replace g with (g + phantom o' (CWarning r m))%nat by (cbn [phantom]; lia). by eapply lu_call.
  - eapply (told_warns o on r m [] (ltr w) G (dirs_of o' G) _ _ o'); [done|apply dirs_of_for|]. rewrite T, prefix_eq. apply told_nil.
Qed.
Lemma does_perror n : does o on (w <- get ; emit (EPrint Stderr (n ++ [58; 32]%N ++ strerr (o (ltr w)) ++ nl))) (Ret tt) [Perror n].
Proof.
  intros w G g Hw Hg. rewrite bind_get. eexists (tr_app w _), G. split; [done|]. split; [by constructor|]. cbn [ltr tr_app]. apply told_perror, told_nil.
Qed.

(** the notes and the result are related by [P] *)
Definition doesP {A} (m : M A) (r : res A) (P : A -> list note -> Prop) : Prop :=
  forall w G g, log_used w G g -> small g ->
  match r with
  | Ret a => exists ns w' G', P a ns /\ m w = Ret (w', Go a) /\ log_used w' G' g /\ told o on ns (ltr w) G (ltr w') G'
  | Fatal => m w = Fatal | Abort => m w = Abort | UB => m w = UB | Diverge => m w = Diverge
  end.
Lemma does_P {A} (m : M A) r (P : A -> list note -> Prop) ns : does o on m r ns -> (forall a, r = Ret a -> P a ns) -> doesP m r P.
Proof.
  intros H HP w G g Hw Hg. specialize (H w G g Hw Hg). destruct r as [a| | | |]; try done. destruct H as (w' & G' & H).
  exists ns, w', G'. split; [by apply HP|done].
Qed.
Lemma P_does {A} (m : M A) r (P : A -> list note -> Prop) ns : doesP m r P -> (forall a n, r = Ret a -> P a n -> n = ns) -> does o on m r ns.
Proof.
  intros H HP w G g Hw Hg. specialize (H w G g Hw Hg). destruct r as [a| | | |]; try done. destruct H as (n & w' & G' & Hn & H).
  rewrite (HP a n eq_refl Hn) in H. by exists w', G'.
Qed.
Lemma P_bind {A B} (m : M A) (f : A -> M B) r (k : A -> res B) (P1 : A -> list note -> Prop) (P : B -> list note -> Prop) :
  doesP m r P1 -> (forall a n1, r = Ret a -> P1 a n1 -> doesP (f a) (k a) (fun b n2 => P b (n1 ++ n2))) ->
  doesP (bind m f) (mbind k r) P.
Proof.
  intros H1 H2 w G g Hw Hg. specialize (H1 w G g Hw Hg). destruct r as [a| | | |]; cbn [mbind res_bind]; try (unfold bind; by rewrite H1).
  destruct H1 as (n1 & w1 & G1 & HP1 & E1 & Hw1 & T1). specialize (H2 a n1 eq_refl HP1 w1 G1 g Hw1 Hg). rewrite (bind_go _ _ _ _ _ E1).
  destruct (k a) as [b| | | |]; try done. destruct H2 as (n2 & w2 & G2 & HP & E2 & Hw2 & T2). exists (n1 ++ n2), w2, G2. split; [done|].
  split; [done|]. split; [done|]. by eapply told_app.
Qed.
Lemma P_lift {A B} (r : res A) (f : A -> M B) (k : A -> res B) (P : B -> list note -> Prop) :
  (forall a, r = Ret a -> doesP (f a) (k a) P) -> doesP (bind (lift r) f) (mbind k r) P.
Proof.
  intros H. eapply (P_bind _ _ _ _ (fun _ n => n = [])); [eapply does_P; [apply does_lift|done]|]. intros a n Ha ->. by apply H.
Qed.
Lemma P_seq {B} (m : M unit) (f : M B) (k : res B) n1 (P : B -> list note -> Prop) : does o on m (Ret tt) n1 -> doesP f k (fun b n2 => P b (n1 ++ n2)) ->
  doesP (bind m (fun _ => f)) k P.
Proof.
  intros H1 H2. eapply (P_bind m (fun _ => f) (Ret tt) (fun _ => k) (fun _ n => n = n1)); [by eapply does_P|]. intros a n _ ->. exact H2.
Qed.
Lemma P_ret {A} (a : A) (P : A -> list note -> Prop) : P a [] -> doesP (ret a) (Ret a) P.
Proof. intros H. eapply does_P; [apply does_ret|]. by intros ? [= <-]. Qed.
Lemma P_fail {A} (r : res A) (P : A -> list note -> Prop) : (forall a, r <> Ret a) -> doesP (lift r) r P.
Proof. intros H. eapply does_P; [apply does_lift|]. intros a Ha. by apply H in Ha. Qed.
Lemma P_end {A} (r : res A) (P : A -> list note -> Prop) : (forall a, r = Ret a -> P a []) -> doesP (lift r) r P.
Proof. intros H. eapply does_P; [apply does_lift|done]. Qed.
Lemma P_mono {A} (m : M A) r (P Q : A -> list note -> Prop) : doesP m r P -> (forall a n, r = Ret a -> P a n -> Q a n) -> doesP m r Q.
Proof.
  intros H HP w G g Hw Hg. specialize (H w G g Hw Hg). destruct r as [a| | | |]; try done. destruct H as (n & w' & G' & Hn & H).
  exists n, w', G'. split; [by apply HP|done].
Qed.

(** ** under a flag *)
Context (fs : fstate) (flag : N) (t : Z) (Ht : dbg_test fs flag = Ret t) (Hon : (t =? 0) = negb on).
Lemma does_say m : lets_write o -> does o on (say o fs flag (Ret m)) (Ret tt) [ToLog m].
Proof using Ht Hon.
  intros Ho w G g Hw Hg. unfold say. rewrite Ht. cbn [mbind res_bind]. rewrite Hon. destruct on; cbn [negb].
  - pose proof (used_inv _ _ _ Hw) as Hi. set (o' := o (ltr w)).
    destruct (message_ok open_failed o' w G g None 6 m Hi (Ho _ _)) as (w' & E & _ & T).
    exists w', (after_message o' G). split; [done|]. split.
    + replace g with (g + phantom o' (CInfo m))%nat by (cbn [phantom]; lia). by eapply lu_call.
    + eapply (told_log o true m [] (ltr w) G (dirs_of o' G)); [done|apply dirs_of_for|]. rewrite T. apply told_nil.
  - exists w, G. split; [done|]. split; [done|]. eapply told_off; [done|eauto|constructor].
Qed.
Lemma does_stdout m : does o on (say_stdout fs flag (Ret m)) (Ret tt) [ToStdout m].
Proof using Ht Hon.
  intros w G g Hw Hg. unfold say_stdout. rewrite Ht. unfold bind, lift. cbn [mbind res_bind]. rewrite Hon. destruct on; cbn [negb].
  - exists (tr_app w [EPrint Stdout m]), G. split; [done|]. split; [by constructor|]. apply told_stdout; [done|]. apply told_nil.
  - exists w, G. split; [done|]. split; [done|]. eapply told_off; [done|eauto|constructor].
Qed.
(** a message that cannot be formatted *)
Lemma say_UB m w : on = true -> m = UB -> say o fs flag m w = UB.
Proof using Ht Hon. intros -> ->. unfold say. rewrite Ht. cbn [mbind res_bind]. by rewrite Hon. Qed.
Lemma stdout_UB m w : on = true -> m = UB -> say_stdout fs flag m w = UB.
Proof using Ht Hon. intros -> ->. unfold say_stdout. rewrite Ht. unfold bind, lift. cbn [mbind res_bind]. by rewrite Hon. Qed.
End does.
