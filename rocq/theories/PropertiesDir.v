(** * C78, C79, C80: files read and written (MatchUpReader.open_nc_datasets, tools/simulation_set_true_K.py). *)
From Coq Require Import String Permutation Sorted.
From Verif Require Import Base BaseLemmas DirModel DirSpec DirProofs.
Open Scope nat_scope.

(** ** C78 *)
(** The output dataset is a plain copy of the input: the K of every file is the K it had before. *)
Theorem C78_output_refuted : forall X K eval (input output input' output' : dir X K) n f, NoDup (map fst input) -> set_true_K eval input output = Ok (input', output') ->
  find_file n input = Some f -> find_file n output' = Some f.
Proof. exact (@output_copy). Qed.
(** The evaluated K replace those of the input dataset. *)
Theorem C78_input_refuted : forall X K eval (input output : dir X K) ks, NoDup (map fst input) -> StronglySorted lex (map fst input) -> (forall n, In n (map fst input) -> nc_name n) ->
  map (@length K) ks = map (fun nf => length (f_K (snd nf))) input -> eval (map snd input) = Ok (concat ks) ->
  exists input' output', set_true_K eval input output = Ok (input', output') /\
    forall i n f k, nth_error input i = Some (n, f) -> nth_error ks i = Some k -> find_file n input' = Some (mkMfile k (f_rest f)).
Proof. exact (@input_overwritten). Qed.
Print Assumptions C78_output_refuted.
Print Assumptions C78_input_refuted.
(** Two files with K = 0, true K 1 and 2. *)
Example C78_example : let input := [("a.nc"%string, mkMfile [0; 0] tt); ("b.nc"%string, mkMfile [0] tt)] in
  NoDup (map fst input) /\ StronglySorted lex (map fst input) /\ (forall n, In n (map fst input) -> nc_name n) /\
  set_true_K (fun _ => Ok [1; 1; 2]) input [] = Ok ([("a.nc"%string, mkMfile [1; 1] tt); ("b.nc"%string, mkMfile [2] tt)], input).
Proof.
  cbn [map fst]. split; [|split; [|split]].
  - repeat constructor; cbn; intuition discriminate.
  - apply (sorted_sorted ["a.nc"; "b.nc"]%string).
  - intros n [<-|[<-|[]]]; [exists "a"%string|exists "b"%string]; reflexivity.
  - reflexivity.
Qed.
(** If [listdir] returns the names in another order, a file gets the K of another one. *)
Example C78_order : set_true_K (fun _ => Ok [1; 2]) [("b.nc"%string, mkMfile [0] tt); ("a.nc"%string, mkMfile [0] tt)] [] =
  Ok ([("b.nc"%string, mkMfile [1] tt); ("a.nc"%string, mkMfile [2] tt)], [("b.nc"%string, mkMfile [0] tt); ("a.nc"%string, mkMfile [0] tt)]).
Proof. reflexivity. Qed.

(** ** C79 *)
(** Opening a directory reads all its .nc files, and nothing else, in the order of their paths. *)
Theorem C79_directory : forall fs d names, fs d = Dir names -> exists ps, open_nc_datasets fs (PStr d) = Ok (Some ps) /\ nc_files d names ps.
Proof. exact directory_ok. Qed.
(** So the order of the match-up series does not depend on the order in which the system lists the files. *)
Theorem C79_listing_order : forall fs fs' d names names', fs d = Dir names -> fs' d = Dir names' -> Permutation names names' ->
  open_nc_datasets fs (PStr d) = open_nc_datasets fs' (PStr d).
Proof. exact directory_order. Qed.
(** A file is opened by itself, files in the order given. *)
Theorem C79_files : forall fs, (forall s, fs s = File -> open_nc_datasets fs (PStr s) = Ok (Some [s])) /\
  (forall l, (forall s, In s l -> fs s = File) -> open_nc_datasets fs (PList l) = Ok (Some l)).
Proof.
  intros fs. split; [intros s H; unfold open_nc_datasets; rewrite H; reflexivity|]. intros l H. unfold open_nc_datasets. replace (forallb _ l) with true; [reflexivity|]. symmetry. apply forallb_forall. intros s Hs. rewrite (H s Hs). reflexivity.
Qed.
Print Assumptions C79_directory.
Print Assumptions C79_listing_order.
Print Assumptions C79_files.
Example C79_example : open_nc_datasets (fun _ => Dir ["m2.nc"; "notes.txt"; "m1.nc"]%string) (PStr "d"%string) = Ok (Some ["d/m1.nc"; "d/m2.nc"]%string).
Proof. reflexivity. Qed.

(** ** C80 *)
(** For a list of directories both fail: the order is that of the listing, and any file is taken. *)
Theorem C80_directories_refuted : (exists fs fs' d names names', fs d = Dir names /\ fs' d = Dir names' /\ Permutation names names' /\ open_nc_datasets fs (PList [d]) <> open_nc_datasets fs' (PList [d])) /\
  (forall fs d names ps, fs d = Dir names -> open_nc_datasets fs (PList [d]) = Ok (Some ps) -> forall f, In f names -> In (pjoin d f) ps).
Proof.
  split.
  - exists (fun _ => Dir ["a.nc"; "b.nc"]%string), (fun _ => Dir ["b.nc"; "a.nc"]%string), "d"%string, ["a.nc"; "b.nc"]%string, ["b.nc"; "a.nc"]%string.
    split; [reflexivity|]. split; [reflexivity|]. split; [constructor|]. vm_compute. discriminate.
  - intros fs d names ps H E f Hf. unfold open_nc_datasets in E. cbn [forallb] in E. rewrite H in E. cbn [is_file is_dir andb foldM] in E. rewrite H in E. cbn [listdir bind app] in E. injection E as <-. apply in_map, Hf.
Qed.
Print Assumptions C80_directories_refuted.
