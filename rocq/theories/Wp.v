(** Weakest-precondition style reasoning for the state/error monad. *)
From Verif Require Import Base.

Definition wp {S A} (m : M S A) (s : S) (Q : out A -> S -> Prop) : Prop :=
  Q (fst (m s)) (snd (m s)).

Section wp.
Context {S : Type}.

Lemma wp_mono {A} (m : M S A) s (Q R : out A -> S -> Prop) :
  wp m s Q -> (forall o s', Q o s' -> R o s') -> wp m s R.
Proof. unfold wp. auto. Qed.

Lemma wp_ret {A} (a : A) (s : S) (Q : out A -> S -> Prop) :
  Q (OK a) s -> wp (ret a) s Q.
Proof. auto. Qed.

Lemma wp_fail {A} e (s : S) (Q : out A -> S -> Prop) :
  Q (ER e) s -> wp (fail e) s Q.
Proof. auto. Qed.

Lemma wp_halt {A} e (s : S) (Q : out A -> S -> Prop) :
  Q (ST e) s -> wp (halt e) s Q.
Proof. auto. Qed.

Lemma wp_gets {A} (f : S -> A) s (Q : out A -> S -> Prop) :
  Q (OK (f s)) s -> wp (gets f) s Q.
Proof. auto. Qed.

Lemma wp_modify (f : S -> S) s (Q : out unit -> S -> Prop) :
  Q (OK tt) (f s) -> wp (modify f) s Q.
Proof. auto. Qed.

Lemma wp_bind {A B} (m : M S A) (f : A -> M S B) s (Q : out B -> S -> Prop) :
  wp m s (fun o s' => match o with
                      | OK a => wp (f a) s' Q
                      | ER e => Q (ER e) s'
                      | ST x => Q (ST x) s'
                      end) ->
  wp (bind m f) s Q.
Proof. unfold wp, bind. destruct (m s) as [[a|e|x] s']; auto. Qed.

Lemma wp_bind_inv {A B} (m : M S A) (f : A -> M S B) s (Q : out B -> S -> Prop) :
  wp (bind m f) s Q ->
  wp m s (fun o s' => match o with
                      | OK a => wp (f a) s' Q
                      | ER e => Q (ER e) s'
                      | ST x => Q (ST x) s'
                      end).
Proof. unfold wp, bind. destruct (m s) as [[a|e|x] s']; auto. Qed.

Lemma wp_attempt {A} (m : M S A) s (Q : out (err + A) -> S -> Prop) :
  wp m s (fun o s' => match o with
                      | OK a => Q (OK (inr a)) s'
                      | ER e => Q (OK (inl e)) s'
                      | ST x => Q (ST x) s'
                      end) ->
  wp (attempt m) s Q.
Proof. unfold wp, attempt. destruct (m s) as [[a|e|x] s']; auto. Qed.

Lemma wp_zoom {T A} (get : S -> T) put (m : M T A) s (Q : out A -> S -> Prop) :
  wp m (get s) (fun o t => Q o (put t s)) ->
  wp (zoom get put m) s Q.
Proof. unfold wp, zoom. destruct (m (get s)) as [o t]; auto. Qed.

Lemma wp_conj {A} (m : M S A) s (Q R : out A -> S -> Prop) :
  wp m s Q -> wp m s R -> wp m s (fun o s' => Q o s' /\ R o s').
Proof. unfold wp. auto. Qed.

(** Lifting a specification of one step through a sequence. *)
Lemma wp_bind_ok {A B} (m : M S A) (f : A -> M S B) s a s' (Q : out B -> S -> Prop) :
  m s = (OK a, s') -> wp (f a) s' Q -> wp (bind m f) s Q.
Proof. unfold wp, bind. intros ->. auto. Qed.

Lemma wp_run {A} (m : M S A) s o s' (Q : out A -> S -> Prop) :
  wp m s Q -> m s = (o, s') -> Q o s'.
Proof. unfold wp. intros H E. rewrite E in H. exact H. Qed.
End wp.
