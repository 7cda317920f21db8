(** Concrete files for the theorems about slices and missing data. *)
From Coq Require Import ZifyBool.
From Verif Require Import Prelude GoVal ArraySpec SliceSpec CdfFormat OrderedMapModel CdfWriterModel CdfReaderModel CdfFormatEx CdfConvert CdfMissing.

(** Two arrays and a vector; the file ends after the first number of the vector *)
Definition grid_header : fheader :=
  mkFheader 1 0 [(bs "y", 2); (bs "x", 3)] []
    [ mkFvar (bs "a") [0; 1] [mkFatt (bs "_FillValue") (ANums I16 [-9])] (ENum I16) 12 200;
      mkFvar (bs "w") [0; 1] [] EChar 8 212;
      mkFvar (bs "b") [0] [] (ENum I32) 8 220 ].
Definition grid_data : bytes := flat_map (be 2) [1; 2; 3; -4; 5; 6] ++ bs "abcdef" ++ [0; 0] ++ be 4 77.
Definition grid_file : bytes := put_header grid_header ++ grid_data.
Definition opened (f : bytes) : cdf := match cdf_open f with Ok c => c | _ => mkCdf [] 0 0 0 [] empty_om empty_om false end.
Definition var_of (f : bytes) (n : bytes) : getter :=
  match get_var_getter (opened f) n with Ok g => g | _ => mkGetter (opened f) (mkRvar [] [] empty_om 0 0 0) [] [] false 0 0 TChar end.


Lemma are_bytes_check f : forallb (fun z => (0 <=? z) && (z <? 256)) f = true -> are_bytes f.
Proof. intros H. apply Forall_forall. intros x Hx. rewrite forallb_forall in H. specialize (H x Hx). unfold is_byte. lia. Qed.
Ltac fixed_tac :=
  constructor; [vm_compute; reflexivity|apply are_bytes_check; vm_compute; reflexivity|vm_compute; reflexivity|vm_compute; reflexivity|
    vm_compute; discriminate|vm_compute; reflexivity|vm_compute; reflexivity|].

Lemma grid_a : fixed_var grid_file (opened grid_file) (bs "a") (var_of grid_file (bs "a")) (ENum I16) (-9).
Proof. fixed_tac. right; vm_compute; reflexivity. Qed.
Lemma grid_w : fixed_var grid_file (opened grid_file) (bs "w") (var_of grid_file (bs "w")) EChar 0.
Proof. fixed_tac. left; split; vm_compute; reflexivity. Qed.
Lemma grid_b : fixed_var grid_file (opened grid_file) (bs "b") (var_of grid_file (bs "b")) (ENum I32) (-2147483647).
Proof. fixed_tac. left; split; vm_compute; reflexivity. Qed.
Lemma grid_read :
  values (var_of grid_file (bs "a")) = Ok (VSlice (GSlice (GNum I16)) [VSlice (GNum I16) (map (VNum I16) [1; 2; 3]); VSlice (GNum I16) (map (VNum I16) [-4; 5; 6])]) /\
  get_slice_md (var_of grid_file (bs "a")) [0; 1] [2; 3] =
    Ok (VSlice (GSlice (GNum I16)) [VSlice (GNum I16) (map (VNum I16) [2; 3]); VSlice (GNum I16) (map (VNum I16) [5; 6])]) /\
  values (var_of grid_file (bs "w")) = Ok (VSlice GString [VStr (bs "abc"); VStr (bs "def")]) /\
  values (var_of grid_file (bs "b")) = Ok (VSlice (GNum I32) (map (VNum I32) [77; -2147483647])).
Proof. repeat split; vm_compute; reflexivity. Qed.

(** The file ends inside the second of three numbers *)
Definition torn_header : fheader := mkFheader 1 0 [(bs "x", 3)] [] [mkFvar (bs "a") [0] [] (ENum I32) 12 80].
Definition torn_file : bytes := put_header torn_header ++ be 4 1 ++ [0].
Lemma torn_len : zlen (put_header torn_header) = 80.
Proof. vm_compute. reflexivity. Qed.
Lemma torn_a : fixed_var torn_file (opened torn_file) (bs "a") (var_of torn_file (bs "a")) (ENum I32) (-2147483647).
Proof. fixed_tac. left; split; vm_compute; reflexivity. Qed.
Lemma torn_read : values (var_of torn_file (bs "a")) = Ok (VSlice (GNum I32) (map (VNum I32) [1; 8388608; 25165824])) /\
  get_slice (var_of torn_file (bs "a")) 2 3 = Ok (VSlice (GNum I32) (map (VNum I32) [-2147483647])).
Proof. split; vm_compute; reflexivity. Qed.

(** Three dimensions of characters *)
Definition cube_header : fheader :=
  mkFheader 1 0 [(bs "z", 1); (bs "y", 1); (bs "x", 2)] [] [mkFvar (bs "a") [0; 1; 2] [] EChar 4 112].
Definition cube_file : bytes := put_header cube_header ++ bs "hi" ++ [0; 0].
Lemma cube_len : zlen (put_header cube_header) = 112.
Proof. vm_compute. reflexivity. Qed.
Lemma cube_a : fixed_var cube_file (opened cube_file) (bs "a") (var_of cube_file (bs "a")) EChar 0.
Proof. fixed_tac. left; split; vm_compute; reflexivity. Qed.
Lemma cube_read : values (var_of cube_file (bs "a")) = Ok (VSlice (GSlice GString) [VSlice GString [VStr (bs "hi")]]) /\
  get_slice (var_of cube_file (bs "a")) 1 1 = Ok (VSlice (GSlice (GSlice (GNum U8))) []).
Proof. split; vm_compute; reflexivity. Qed.

(** A variable of characters with a fill value of type char, all data present *)
Definition fillc_header : fheader :=
  mkFheader 1 0 [(bs "x", 2)] [] [mkFvar (bs "a") [0] [mkFatt (bs "_FillValue") (AText (bs "-"))] EChar 4 108].
Definition fillc_file : bytes := put_header fillc_header ++ bs "hi" ++ [0; 0].
Lemma fillc_len : zlen (put_header fillc_header) = 108.
Proof. vm_compute. reflexivity. Qed.
Lemma fillc_read : cdf_open fillc_file = Ok (opened fillc_file) /\ get_variable (opened fillc_file) (bs "a") = Panic.
Proof. split; vm_compute; reflexivity. Qed.
(** A single character above 127 *)
Definition high_header : fheader := mkFheader 1 0 [] [] [mkFvar (bs "a") [] [] EChar 4 64].
Definition high_file : bytes := put_header high_header ++ [200; 0; 0; 0].
Lemma high_read : zlen (put_header high_header) = 64 /\ cdf_open high_file = Ok (opened high_file) /\
  values (var_of high_file (bs "a")) = Ok (VStr [195; 136]).
Proof. repeat split; vm_compute; reflexivity. Qed.
