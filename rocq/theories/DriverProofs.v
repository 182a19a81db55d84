(** The driver: lemmas for C47. *)
From Coq Require Import Lia.
From Verif Require Import Base DriverModel.
Open Scope Z_scope.

Lemma strrchr_none c s : strrchr c s = None <-> ~ In c s.
Proof.
  induction s as [|x s IH]; cbn [strrchr]; [intuition discriminate |].
  destruct (strrchr c s) eqn:E.
  - split; [discriminate |]. intros H. exfalso. apply H. right.
    destruct (in_dec Z.eq_dec c s) as [Hin | Hout]; [exact Hin |]. apply IH in Hout. discriminate.
  - destruct (x =? c) eqn:X.
    + split; [discriminate | intros H; exfalso; apply H; left; lia].
    + split; [intros _ [<- | H]; [lia | now apply IH in H] | reflexivity].
Qed.
Lemma strrchr_some c s t : strrchr c s = Some t <-> exists a r, s = a ++ t /\ t = c :: r /\ ~ In c r.
Proof.
  revert t. induction s as [|x s IH]; intros t; cbn [strrchr].
  - split; [discriminate |]. intros (a & r & H & -> & _). destruct a; discriminate.
  - destruct (strrchr c s) as [u |] eqn:E.
    + assert (Hu : exists a r, s = a ++ u /\ u = c :: r /\ ~ In c r) by (apply IH; reflexivity).
      destruct Hu as (a & r & -> & -> & Hr).
      split.
      * intros [= <-]. exists (x :: a), r. repeat split; assumption.
      * intros (b & r' & H & -> & Hr'). destruct b as [|y b]; cbn [app] in H; injection H as -> H.
        -- exfalso. apply Hr'. rewrite <- H. apply in_or_app. right. now left.
        -- apply (proj2 (IH (c :: r'))). exists b, r'. repeat split; assumption.
    + apply strrchr_none in E. destruct (x =? c) eqn:X.
      * apply Z.eqb_eq in X as ->. split.
        -- intros [= <-]. exists [], s. repeat split; assumption.
        -- intros (b & r' & H & -> & Hr'). destruct b as [|y b]; cbn [app] in H; [injection H as H; now rewrite H | injection H as _ H].
           exfalso. apply E. rewrite H. apply in_or_app. right. now left.
      * split; [discriminate |]. intros (b & r' & H & -> & Hr').
        destruct b as [|y b]; cbn [app] in H; injection H as -> H; [lia |].
        exfalso. apply E. rewrite H. apply in_or_app. right. now left.
Qed.
Lemma strrchr_dot_c s : strrchr 46 s = Some [46; 99] <-> exists base, s = base ++ bytes ".c".
Proof.
  rewrite strrchr_some. split.
  - intros (a & r & -> & [= <-] & _). now exists a.
  - intros (a & ->). exists a, [99]. split; [reflexivity | split; [reflexivity |]]. cbn. intuition discriminate.
Qed.
Lemma output_name_dot_s base : output_name (base ++ bytes ".c") = base ++ bytes ".s".
Proof.
  unfold output_name. change (bytes ".c") with ([46] ++ [99]). rewrite app_assoc, removelast_last, <- app_assoc. reflexivity.
Qed.
Lemma dot_c_case (s : list Z) {A} (a b : A) :
  match strrchr 46 s with Some [46; 99] => a | _ => b end
  = if list_eq_dec Z.eq_dec (match strrchr 46 s with Some t => t | None => [] end) [46; 99] then a else b.
Proof.
  destruct (strrchr 46 s) as [t |]; [| reflexivity].
  destruct (list_eq_dec Z.eq_dec t [46; 99]) as [-> | N]; [reflexivity |].
  destruct t as [|x [|y [|z t]]]; try reflexivity.
  - destruct x as [|[p|p|]|p]; try reflexivity. all: repeat (destruct p as [p|p|]; try reflexivity).
  - destruct (Z.eq_dec x 46) as [-> | X].
    + destruct (Z.eq_dec y 99) as [-> | Y]; [contradiction |].
      destruct y as [|p|p]; try reflexivity. repeat (destruct p as [p|p|]; try reflexivity). contradiction.
    + destruct x as [|p|p]; try reflexivity. repeat (destruct p as [p|p|]; try reflexivity). contradiction.
  - destruct x as [|p|p]; try reflexivity. repeat (destruct p as [p|p|]; try reflexivity).
    destruct y as [|p|p]; try reflexivity. repeat (destruct p as [p|p|]; try reflexivity).
Qed.
Lemma main_dot_c base files writable content : files (base ++ bytes ".c") = Some content ->
  main [base ++ bytes ".c"] files writable =
  match (do text <- freader_read content; compile_codes text) with
  | Ok codes => if writable (base ++ bytes ".s") then
                  do text <- print_x64 codes; Ok (mkeffect 0 (Some (base ++ bytes ".s", text)))
                else UB
  | Err | Fatal => Ok (mkeffect 1 None)
  | UB => UB | Fuel => Fuel
  end.
Proof.
  intros H. unfold main. rewrite H, (proj2 (strrchr_dot_c _)) by now exists base. rewrite output_name_dot_s. reflexivity.
Qed.
Lemma main_other src files writable : ~ (exists base, src = base ++ bytes ".c") -> main [src] files writable = Ok (mkeffect 1 None).
Proof.
  intros H. unfold main. destruct (files src) as [content |]; [| reflexivity].
  rewrite dot_c_case. destruct (list_eq_dec Z.eq_dec _ [46; 99]) as [E | E]; [| reflexivity].
  exfalso. apply H. apply strrchr_dot_c. destruct (strrchr 46 src); [now rewrite E | discriminate].
Qed.

(** a compilation that succeeds, of the whole text of the file *)
Definition compiles (content text : list Z) : Prop := content <> [] /\ compile content = Ok text.
Definition rejects (content : list Z) : Prop := content = [] \/ compile_codes content = Err \/ compile_codes content = Fatal.

Lemma main_effect args files writable e : main args files writable = Ok e ->
  (status e = 1 /\ written e = None) \/
  (status e = 0 /\ exists base content text, args = [base ++ bytes ".c"] /\ files (base ++ bytes ".c") = Some content
     /\ compiles content text /\ written e = Some (base ++ bytes ".s", text)).
Proof.
  intros H. destruct args as [|src [|]]; try (injection H as <-; now left).
  destruct (files src) as [content |] eqn:F; [| unfold main in H; rewrite F in H; injection H as <-; now left].
  destruct (list_eq_dec Z.eq_dec (match strrchr 46 src with Some t => t | None => [] end) [46; 99]) as [E | E].
  - assert (B : exists base, src = base ++ bytes ".c")
      by (apply strrchr_dot_c; destruct (strrchr 46 src); [now rewrite E | discriminate]).
    destruct B as (base & ->). rewrite (main_dot_c _ _ _ _ F) in H.
    destruct content as [|x content]; [injection H as <-; now left |].
    cbn [freader_read bind] in H. destruct (compile_codes (x :: content)) as [codes | | | |] eqn:C; try discriminate;
      try (injection H as <-; now left).
    destruct (writable (base ++ bytes ".s")); [| discriminate].
    destruct (print_x64 codes) as [text | | | |] eqn:P; try discriminate. injection H as <-.
    right. split; [reflexivity |]. exists base, (x :: content), text. split; [reflexivity |]. split; [exact F |].
    split; [| reflexivity]. split; [discriminate |]. unfold compile. rewrite C. exact P.
  - rewrite main_other in H; [injection H as <-; now left |].
    intros B. apply strrchr_dot_c in B. now rewrite B in E.
Qed.
Lemma main_rejects base content files writable : files (base ++ bytes ".c") = Some content -> rejects content ->
  main [base ++ bytes ".c"] files writable = Ok (mkeffect 1 None).
Proof.
  intros F R. rewrite (main_dot_c _ _ _ _ F). destruct content as [|x content]; [reflexivity |]. cbn [freader_read bind].
  destruct R as [R | [R | R]]; [discriminate | |]; now rewrite R.
Qed.
Lemma main_bad_arguments args files writable :
  ~ (exists base content, args = [base ++ bytes ".c"] /\ files (base ++ bytes ".c") = Some content) ->
  main args files writable = Ok (mkeffect 1 None).
Proof.
  intros H. destruct args as [|src [|]]; [reflexivity | | reflexivity].
  destruct (files src) as [content |] eqn:F; [| unfold main; now rewrite F].
  apply main_other. intros (base & ->). apply H. now exists base, content.
Qed.
Lemma main_compiles base content text files writable : files (base ++ bytes ".c") = Some content -> compiles content text ->
  writable (base ++ bytes ".s") = true ->
  main [base ++ bytes ".c"] files writable = Ok (mkeffect 0 (Some (base ++ bytes ".s", text))).
Proof.
  intros F (N & C) W. rewrite (main_dot_c _ _ _ _ F). destruct content as [|x content]; [contradiction |].
  cbn [freader_read bind]. unfold compile in C. destruct (compile_codes (x :: content)) as [codes | | | |]; try discriminate.
  rewrite W. cbn [bind] in C. rewrite C. reflexivity.
Qed.
