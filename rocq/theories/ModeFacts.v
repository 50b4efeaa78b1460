(* ModeFacts.v - debug and release builds: a computation in a debug build panics or gives what it gives
   in any other build. *)
From Verif Require Import BaseFacts.
Local Open Scope N_scope.

Definition refines {E A} (d r : res E A) : Prop := d = Panic \/ d = r.
Lemma refines_refl {E A} (r : res E A) : refines r r.
Proof. right. reflexivity. Qed.
Lemma refines_panic {E A} (r : res E A) : refines Panic r.
Proof. left. reflexivity. Qed.
Lemma refines_bind {E A B} (d r : res E A) (f g : A -> res E B) :
  refines d r -> (forall x, refines (f x) (g x)) -> refines (bind d f) (bind r g).
Proof. intros [->| ->] H; [left; reflexivity|]. destruct r; cbn [bind]; try apply refines_refl. apply H. Qed.
Lemma refines_ov {E} m w v : @refines E _ (ov Debug w v) (ov m w v).
Proof. unfold ov. destruct m; [apply refines_refl|]. destruct (v <? w) eqn:H; [right|left; reflexivity]. reflexivity. Qed.
Lemma refines_add8 {E} m a b : @refines E _ (add8 Debug a b) (add8 m a b).
Proof. apply refines_ov. Qed.
Lemma refines_mul8 {E} m a b : @refines E _ (mul8 Debug a b) (mul8 m a b).
Proof. apply refines_ov. Qed.
Lemma refines_add16 {E} m a b : @refines E _ (add16 Debug a b) (add16 m a b).
Proof. apply refines_ov. Qed.
Lemma refines_match {E A F B} (d r : res E A) (f g : A -> res F B) (h h' : E -> res F B) :
  refines d r -> (forall x, refines (f x) (g x)) -> (forall e, refines (h e) (h' e)) ->
  refines (match d with Ok x => f x | Err e => h e | Panic => Panic | Diverge => Diverge end)
          (match r with Ok x => g x | Err e => h' e | Panic => Panic | Diverge => Diverge end).
Proof. intros [->| ->] H H'; [left; reflexivity|]. destruct r; try apply refines_refl; auto. Qed.
Lemma refines_ok {E A} (d r : res E A) x : refines d r -> d = Ok x -> r = Ok x.
Proof. intros [->| ->] H; [discriminate|exact H]. Qed.

Ltac same := repeat (intros;
  match goal with
  | |- refines ?a ?a => apply refines_refl
  | |- refines Panic _ => apply refines_panic
  | |- refines (bind _ _) (bind _ _) => apply refines_bind
  | |- refines (add8 _ _ _) (add8 _ _ _) => apply refines_add8
  | |- refines (mul8 _ _ _) (mul8 _ _ _) => apply refines_mul8
  | |- refines (add16 _ _ _) (add16 _ _ _) => apply refines_add16
  | |- refines (ov _ _ _) (ov _ _ _) => apply refines_ov
  | |- refines (match ?d with Ok _ => _ | Err _ => _ | Panic => Panic | Diverge => Diverge end)
               (match ?d with Ok _ => _ | Err _ => _ | Panic => Panic | Diverge => Diverge end) => destruct d
  | |- refines (match ?d with Ok _ => _ | Err _ => _ | Panic => Panic | Diverge => Diverge end) _ => apply refines_match
  | |- refines (match ?c with _ => _ end) (match ?c with _ => _ end) => destruct c
  end); intros.
