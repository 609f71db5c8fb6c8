(** * Props_Handles: C126, the driver and its files use handles only while they are open. *)
From Coq Require Import String.
From Verif Require Import GoBase ListZ Errors Flags GoPath Spec_Path BlockCache BasicStream Driver DriverFile Spec_Driver Spec_Handles HandlesProofs Props_Driver2.

(* C126: whatever a program does with a mounted driver and the files it opens, on any implementation with any fault behaviour,
   no method of a handle is called after that handle has been closed *)
Theorem C126_no_use_after_close : forall F H (im : impl F H) wm l, observed im wm l -> no_use_after_close l.
Proof. intros F H im wm l HO. destruct (observed_inv _ _ _ HO) as (s & V & <-). apply V. Qed.
(* C126: every handle used or closed was obtained from the implementation earlier *)
Theorem C126_only_obtained_handles : forall F H (im : impl F H) wm l, observed im wm l -> only_obtained l.
Proof. intros F H im wm l HO. destruct (observed_inv _ _ _ HO) as (s & V & <-). apply V. Qed.
(* C126: each handle is counted once, so the two statements above speak of one handle each *)
Theorem C126_handles_distinct : forall F H (im : impl F H) wm l, observed im wm l -> distinct l.
Proof. intros F H im wm l HO id. destruct (observed_inv _ _ _ HO) as (s & V & <-). rewrite (v_cnt _ _ V). destruct (_ <? _)%nat; lia. Qed.
(* C126: the handle of a file a program has opened is still open, whatever was done with the driver and other files meanwhile,
   even after the file itself was closed *)
Theorem C126_file_handles_stay_open : forall F H (im : impl F H) wm files s f, program im wm files s -> In f files ->
  In (EvAcquire (x_id (fl_obj f))) (d_log s) /\ ~ In (EvRelease (x_id (fl_obj f))) (d_log s).
Proof.
  intros F H im wm files s f HP Hf. pose proof (program_inv _ _ _ _ HP) as V. destruct (v_open _ _ V (x_id (fl_obj f))) as [H1 H2]; [now exists f|].
  split; [exact (issued _ _ _ V H1)|exact H2].
Qed.

(* a program that opens a file, removes an empty directory, closes the file, and then grows it: handles are opened, used and closed *)
Definition run_story : option (dst node * file (list (list Z))) :=
  match open_file (memfs 4) Full demo 60 (B "f") 2 0 (start (NDir tree)) with
  | Done s1 (inl f) =>
      match run_op (memfs 4) Full demo 60 (PRemove (B "z")) s1 with
      | Done s2 _ =>
          match run_fop (memfs 4) FClose f s2 with
          | Done s3 g => match run_fop (memfs 4) (FTruncate 9) g s3 with Done s4 h => Some (s4, h) | _ => None end
          | _ => None
          end
      | _ => None
      end
  | _ => None
  end.
Example C126_example : exists files s f, program (memfs 4) Full files s /\ In f files /\ run_story = Some (s, f) /\ observed (memfs 4) Full (d_log s) /\
  match run_story with Some (s1, g) => x_id (fl_obj g) = 1%nat /\ d_log s1 = [EvAcquire 0; EvGet 0 (B "f"); EvAcquire 1; EvRelease 0;
    EvAcquire 2; EvGet 2 (B "z"); EvAcquire 3; EvRelease 2; EvList 3; EvUnlink 3; EvRelease 3; EvResizeObj 1 3] | None => False end.
Proof.
  unfold run_story.
  destruct (open_file (memfs 4) Full demo 60 (B "f") 2 0 (start (NDir tree))) as [s1 [f|e]|s1|s1] eqn:E1; [|exfalso; vm_compute in E1; discriminate..].
  destruct (run_op (memfs 4) Full demo 60 (PRemove (B "z")) s1) as [s2 r2|s2|s2] eqn:E2.
  2,3: exfalso; vm_compute in E1; injection E1 as <- <-; vm_compute in E2; discriminate.
  destruct (run_fop (memfs 4) FClose f s2) as [s3 g|s3|s3] eqn:E3.
  2,3: exfalso; vm_compute in E1; injection E1 as <- <-; vm_compute in E2; injection E2 as <- <-; vm_compute in E3; discriminate.
  destruct (run_fop (memfs 4) (FTruncate 9) g s3) as [s4 h|s4|s4] eqn:E4.
  2,3: exfalso; vm_compute in E1; injection E1 as <- <-; vm_compute in E2; injection E2 as <- <-; vm_compute in E3; injection E3 as <- <-; vm_compute in E4; discriminate.
  assert (program (memfs 4) Full [h; g; f] s4) as HP.
  { apply (pr_file _ _ [g; f] s3 g (FTruncate 9) s4 h); [|now left|exact E4]. apply (pr_file _ _ [f] s2 f FClose s3 g); [|now left|exact E3].
    eapply pr_op; [|exact E2]. eapply (pr_open _ _ []); [|exact E1]. apply pr_start. }
  exists [h; g; f], s4, h. split; [exact HP|]. split; [now left|]. split; [reflexivity|]. split; [exact (ob_now _ _ _ _ HP)|].
  vm_compute in E1. injection E1 as <- <-. vm_compute in E2. injection E2 as <- <-. vm_compute in E3. injection E3 as <- <-. vm_compute in E4. injection E4 as <- <-.
  now vm_compute.
Qed.
Print Assumptions C126_no_use_after_close.
Print Assumptions C126_only_obtained_handles.
Print Assumptions C126_handles_distinct.
Print Assumptions C126_file_handles_stay_open.
