(** More of the test tables of /repo run on the model (tests, not proofs). *)
From Verif Require Import Base.Bytes Model.GoIO Model.GoStd Model.Nixbase32 Model.Nixhash Model.Storepath Model.Derivation Model.DrvParser Model.DrvStore Model.NarInfo Model.Wire Model.Nar Model.NarReader Model.NarWriter Model.NarDump Model.NarDumpOS Model.Signature Model.Json Check.Sha256 Check.Fixtures.

(** ** pkg/wire/read_test.go *)
Definition rd1 (s : bytes) : src := Src [s] EEOF false.
Definition c8 : bytes := hex "2a172a172a172a17".
Definition w8 : bytes := hex "08000000000000002a172a172a172a17".
Definition c10 : bytes := hex "2a172a172a172a172a17".
Definition w10 : bytes := hex "0a000000000000002a172a172a172a172a17000000000000".
Definition wFoo : bytes := hex "0300000000000000466f6f0000000000".
Example TestReadUint64 : fst (ReadUint64 (rd1 (hex "0d00000000000000"))) = Ok 13%N.
Proof. vm_compute. reflexivity. Qed.
Example TestReadUint64Slow : fst (ReadUint64 (Src [[x0d]; []; repeat x00 7] EEOF false)) = Ok 13%N.
Proof. vm_compute. reflexivity. Qed.
Example TestReadBool :
  map (fun s => fst (ReadBool (rd1 (hex s)))) ["0000000000000000"; "0100000000000000"]%string = [Ok false; Ok true]
  /\ isOk (fst (ReadBool (rd1 (hex "0200000000000000")))) = false.
Proof. vm_compute. split; reflexivity. Qed.
Example TestReadBytes : fst (ReadBytesFull (rd1 w8) 1024) = Ok c8 /\ fst (ReadBytesFull (rd1 w10) 1024) = Ok c10.
Proof. vm_compute. split; reflexivity. Qed.
Example TestReadBytes_twice :
  let '(a, s) := ReadBytesFull (rd1 (w10 ++ w8)) 1024 in (a, fst (ReadBytesFull s 1024)) = (Ok c10, Ok c8).
Proof. vm_compute. reflexivity. Qed.
Example TestReadString : fst (ReadString (rd1 wFoo) 1024) = Ok (bs "Foo").
Proof. vm_compute. reflexivity. Qed.
Example TestReadString_max :
  let '(a, s) := ReadString (rd1 wFoo) 2 in (isOk a, concat (chunks s)) = (false, skipn 8 wFoo).
Proof. vm_compute. reflexivity. Qed.

(** ** pkg/wire/write_test.go *)
Definition buf : sink := Sink [] [].
Definition wrote (p : option error * sink) : option bytes := match p with (None, w) => Some (out w) | _ => None end.
Example TestWriteUint64 : wrote (WriteUint64 buf 1) = Some (hex "0100000000000000").
Proof. vm_compute. reflexivity. Qed.
Example TestWriteBool : map (fun b => wrote (WriteBool buf b)) [true; false] = [Some (hex "0100000000000000"); Some (hex "0000000000000000")].
Proof. vm_compute. reflexivity. Qed.
Example TestWriteBytes : map (fun b => wrote (WriteBytes buf b)) [c8; c10] = [Some w8; Some w10].
Proof. vm_compute. reflexivity. Qed.
Example TestWriteString : wrote (WriteString buf (bs "Foo")) = Some wFoo.
Proof. vm_compute. reflexivity. Qed.
(** NewBytesWriter of [n], then the pieces, then Close twice: what each said, and the buffer. *)
Fixpoint bw_pieces (l : list bytes) (bw : bytes_writer) (w : sink) : list (N * bool) * (bytes_writer * sink) :=
  match l with
  | [] => ([], (bw, w))
  | p :: l =>
      let '(x, (bw, w)) := bw_write bw p w in
      let '(xs, st) := bw_pieces l bw w in
      ((N.of_nat (fst x), match snd x with None => true | _ => false end) :: xs, st)
  end.
Definition bw_test (n : N) (l : list bytes) : option (list (N * bool) * bool * bool * bytes) :=
  match NewBytesWriter buf n with
  | (Ok bw, w) =>
      let '(xs, (bw, w)) := bw_pieces l bw w in
      let '(c1, (bw, w)) := bw_close bw w in
      let '(c2, (_, w2)) := bw_close bw w in
      Some (xs, match c1 with None => true | _ => false end, match c2 with None => true | _ => false end, out w2)
  | _ => None
  end.
Example TestBytesWriter8Bytes : bw_test 8 [firstn 4 c8; skipn 4 c8] = Some ([(4, true); (4, true)]%N, true, true, w8).
Proof. vm_compute. reflexivity. Qed.
Example TestBytesWriter10Bytes : bw_test 10 [firstn 4 c10; skipn 4 c10] = Some ([(4, true); (6, true)]%N, true, true, w10).
Proof. vm_compute. reflexivity. Qed.
Example TestBytesWriterError :
  (match bw_test 9 [c10] with Some ([(_, ok)], _, _, _) => ok | _ => true end) = false
  /\ (match bw_test 11 [c10] with Some ([(n, ok)], c, _, _) => (n =? 10)%N && ok && negb c | _ => false end) = true.
Proof. vm_compute. split; reflexivity. Qed.

(** ** pkg/nar/fixtures_test.go, writer_test.go *)
Definition genEmptyDirectoryNar : bytes := hex "0d000000000000006e69782d617263686976652d31000000010000000000000028000000000000000400000000000000747970650000000009000000000000006469726563746f72790000000000000001000000000000002900000000000000".
Definition genOneByteRegularNar : bytes := hex "0d000000000000006e69782d617263686976652d3100000001000000000000002800000000000000040000000000000074797065000000000700000000000000726567756c6172000800000000000000636f6e74656e74730100000000000000010000000000000001000000000000002900000000000000".
Definition genSymlinkNar : bytes := hex "0d000000000000006e69782d617263686976652d310000000100000000000000280000000000000004000000000000007479706500000000070000000000000073796d6c696e6b000600000000000000746172676574000018000000000000002f6e69782f73746f72652f736f6d657768657265656c736501000000000000002900000000000000".
Inductive wcall := CHeader (h : header) | CWrite (b : bytes) | CClose.
Fixpoint wcalls (l : list wcall) (r : wr) : list wres * wr :=
  match l with
  | [] => ([], r)
  | c :: l =>
      let '(x, r) := match c with
        | CHeader h => WriteHeader h r
        | CWrite b => let '((_, x), r) := wr_Write b r in (x, r)
        | CClose => wr_Close r
        end in
      let '(xs, r) := wcalls l r in (x :: xs, r)
  end.
Definition wtest (l : list wcall) : option (list bool * bytes) :=
  match NewWriter buf with
  | (Ok r, _) => let '(xs, r) := wcalls l r in
      if forallb (fun x => match x with WPanic _ | WBlocked => false | _ => true end) xs
      then Some (map (fun x => match x with WOk => true | _ => false end) xs, out (wr_sink r)) else None
  | _ => None
  end.
Definition says (l : list wcall) : option (list bool) := match wtest l with Some (x, _) => Some x | None => None end.
Definition dir (p : string) : wcall := CHeader (Header (bs p) TypeDirectory [] 0 false).
Definition lnk (p t : string) : wcall := CHeader (Header (bs p) TypeSymlink (bs t) 0 false).
Example TestWriterEmpty : says [CClose; CClose] = Some [false; false] \/ says [CClose; CClose] = Some [false; true].
Proof. vm_compute. tauto. Qed.
Example TestWriterEmptyDirectory :
  wtest [dir "/"; CClose] = Some ([true; true], genEmptyDirectoryNar)
  /\ match wtest [dir "/"; CClose; CClose] with Some _ => true | None => false end = true.
Proof. vm_compute. split; reflexivity. Qed.
Example TestWriterOneByteRegular :
  wtest [CHeader (Header (bs "/") TypeRegular [] 1 false); CWrite [x01]; CClose] = Some ([true; true; true], genOneByteRegularNar).
Proof. vm_compute. reflexivity. Qed.
Example TestWriterSymlink : wtest [lnk "/" "/nix/store/somewhereelse"; CClose] = Some ([true; true], genSymlinkNar).
Proof. vm_compute. reflexivity. Qed.
Example transitions :
  map says
    [ [dir "/"; lnk "/a/foo" "doesntmatter"];
      [dir "/a"];
      [lnk "/a" "foo"];
      [dir "/"; lnk "/a" "doesntmatter"; lnk "/a/b" "doesntmatter"];
      [dir "/"; lnk "/b" "foo"; lnk "/a" "foo"];
      [dir "/"; lnk "/a" "foo"; lnk "/a" "foo"];
      [dir "/"; dir "/foo"; lnk "/foo/b" "foo"; lnk "/foo-a" "foo"] ]
  = [ Some [true; false]; Some [false]; Some [false]; Some [true; true; false];
      Some [true; true; false]; Some [true; true; false]; Some [true; true; true; true] ].
Proof. vm_compute. reflexivity. Qed.

(** ** pkg/nar/dump_test.go, dump_nonwindows_test.go *)
Definition os1 (e : error) : os_answer := OA (LErr e) (inr e) (inr e) (inr e).
Definition file_os (mode : N) (data : bytes) : os_answer :=
  OA (LReg mode (Z.of_nat (length data))) (inr (EMsg "EINVAL")) (inr (EMsg "ENOTDIR")) (inl (rd1 data)).
Definition dir_os (names : list bytes) : os_answer := OA LDir (inr (EMsg "EINVAL")) (inl names) (inr (EMsg "EISDIR")).
Definition link_os (t : bytes) : os_answer := OA LSym (inl t) (inr (EMsg "ENOTDIR")) (inr (EMsg "ENOENT")).
Definition fifo_os : os_answer := OA LSpecial (inr (EMsg "EINVAL")) (inr (EMsg "ENOTDIR")) (inl (rd1 [])).
Definition disk (l : list (bytes * os_answer)) (_ : nat) (p : bytes) : os_answer :=
  match find (fun x => beq (fst x) p) l with Some (_, a) => a | None => os1 (EMsg "ENOENT") end.
Definition dumped (flt : option (bytes -> bytes -> bool)) (p : string) (l : list (bytes * os_answer)) : option bytes :=
  match DumpOS flt (bs p) (disk l) 10 buf with (WOk, (_, w)) => Some (out w) | _ => None end.
Definition rusr : N := 256%N.
Definition ixusr : N := 320%N.
Example TestDumpPathEmptyDir : dumped None "/tmp/t" [(bs "/tmp/t", dir_os [])] = Some genEmptyDirectoryNar.
Proof. vm_compute. reflexivity. Qed.
Example TestDumpPathOneByteRegular : dumped None "/tmp/t/a" [(bs "/tmp/t/a", file_os rusr [x01])] = Some genOneByteRegularNar.
Proof. vm_compute. reflexivity. Qed.
Example TestDumpPathOneByteExecutable :
  match dumped None "/tmp/t/a" [(bs "/tmp/t/a", file_os ixusr [x01])] with
  | Some s => nar_headers s = Some ([Header (bs "/") TypeRegular [] 1 true], Some EEOF)
  | None => False
  end.
Proof. vm_compute. reflexivity. Qed.
Example TestDumpPathSymlink : dumped None "/tmp/t/a" [(bs "/tmp/t/a", link_os (bs "/nix/store/somewhereelse"))] = Some genSymlinkNar.
Proof. vm_compute. reflexivity. Qed.
Definition tmp_a : list (bytes * os_answer) := [(bs "/tmp/t", dir_os [bs "a"]); (bs "/tmp/t/a", file_os rusr [x01])].
Example TestDumpPathRecursion :
  match dumped None "/tmp/t" tmp_a with
  | Some s => nar_headers s = Some ([Header (bs "/") TypeDirectory [] 0 false; Header (bs "/a") TypeRegular [] 1 false], Some EEOF)
  | None => False
  end.
Proof. vm_compute. reflexivity. Qed.
Example TestDumpPathFilter_unfiltered :
  dumped (Some (fun name ty => beq name (bs "/tmp/t/a") && beq ty TypeRegular)) "/tmp/t/a" tmp_a = Some genOneByteRegularNar.
Proof. vm_compute. reflexivity. Qed.
Example TestDumpPathFilter_filtered :
  dumped (Some (fun name _ => negb (beq name (bs "/tmp/t/a")))) "/tmp/t" tmp_a = Some genEmptyDirectoryNar.
Proof. vm_compute. reflexivity. Qed.
Example TestDumpPathUnknown :
  fst (DumpOS None (bs "/tmp/t/a") (disk [(bs "/tmp/t/a", fifo_os)]) 10 buf) = WErr (EMsg "unknown type").
Proof. vm_compute. reflexivity. Qed.

(** ** pkg/narinfo/signature/signature_test.go (parsing; Ed25519 itself is not modelled) *)
Definition nixosPublicKey : bytes := bs "cache.nixos.org-1:6NCHdD59X431o0gWypbMrAURkbJ16ZPMQFGspcDShjY=".
Definition test1PublicKey : bytes := bs "test1:tLAEn+EeaBUJYqEpTd2yeerr7Ic6+0vWe+aXL/vYUpE=".
Definition test1SecretKey : bytes := bs "test1:jbX9NxZp8WB/coK8k7yLf0gNYmBbIbCrOFwgJgI7OV+0sASf4R5oFQlioSlN3bJ56uvshzr7S9Z75pcv+9hSkQ==".
Definition sigStr : bytes := bs "test1:519iiVLx/c4Rdt5DNt6Y2Jm6hcWE9+XY69ygiWSZCNGVcmOcyL64uVAJ3cV8vaTusIZdbTnYo9Y7vDNeTmmMBQ==".
Definition shown {A} (f : A -> bytes) (r : res A) : option bytes := match r with Ok a => Some (f a) | _ => None end.
Example TestPublicKeyLoad :
  map (fun s => shown pk_String (ParsePublicKey s)) [nixosPublicKey; test1PublicKey] = [Some nixosPublicKey; Some test1PublicKey].
Proof. vm_compute. reflexivity. Qed.
Example TestSecretKeyLoad :
  shown sk_String (LoadSecretKey test1SecretKey) = Some test1SecretKey
  /\ rbind (LoadSecretKey test1SecretKey) ToPublicKey = ParsePublicKey test1PublicKey.
Proof. vm_compute. split; reflexivity. Qed.
Example TestSignature : shown sig_String (ParseSignature sigStr) = Some sigStr.
Proof. vm_compute. reflexivity. Qed.

(** ** pkg/derivation/derivation_test.go TestValidate *)
Definition jq (edit : drv -> drv) : bool :=
  match parsed f_cl5fr6 with Ok d => isOk (drv_Validate (edit d)) | _ => true end.
Definition with_outputs (f : amap output -> amap output) (d : drv) : drv :=
  Drv (d_name d) (f (d_outputs d)) (d_srcs d) (d_inputs d) (d_platform d) (d_builder d) (d_args d) (d_env d).
Definition rename {V} (k k' : bytes) (m : amap V) : amap V :=
  map (fun kv => if beq (fst kv) k then (k', snd kv) else kv) m.
Example validate_itself : jq (fun d => d) = true.
Proof. vm_compute. reflexivity. Qed.
Example NoOutputsAtAll : jq (with_outputs (fun _ => [])) = false.
Proof. vm_compute. reflexivity. Qed.
Example NoOutputName : jq (with_outputs (rename (bs "bin") [])) = false.
Proof. vm_compute. reflexivity. Qed.
Example InvalidOutputPath :
  jq (with_outputs (map (fun kv => if beq (fst kv) (bs "bin")
        then (fst kv, Output (bs "invalidPath") (o_algo (snd kv)) (o_hash (snd kv))) else kv))) = false.
Proof. vm_compute. reflexivity. Qed.
Example InvalidInputDerivation :
  jq (fun d => Drv (d_name d) (d_outputs d) (d_srcs d)
        (rename (bs "/nix/store/073gancjdr3z1scm2p553v0k3cxj2cpy-fix-tests-when-building-without-regex-supports.patch.drv") [] (d_inputs d))
        (d_platform d) (d_builder d) (d_args d) (d_env d)) = false.
Proof. vm_compute. reflexivity. Qed.
Example InvalidInputSource :
  jq (fun d => Drv (d_name d) (d_outputs d) (bs "baz" :: tl (d_srcs d)) (d_inputs d) (d_platform d) (d_builder d) (d_args d) (d_env d)) = false.
Proof. vm_compute. reflexivity. Qed.
Example MissingPlatform :
  jq (fun d => Drv (d_name d) (d_outputs d) (d_srcs d) (d_inputs d) [] (d_builder d) (d_args d) (d_env d)) = false.
Proof. vm_compute. reflexivity. Qed.
Example MissingBuilder :
  jq (fun d => Drv (d_name d) (d_outputs d) (d_srcs d) (d_inputs d) (d_platform d) [] (d_args d) (d_env d)) = false.
Proof. vm_compute. reflexivity. Qed.
Example EmptyEnvVar :
  jq (fun d => Drv (d_name d) (d_outputs d) (d_srcs d) (d_inputs d) (d_platform d) (d_builder d) (d_args d) (mset (d_env d) [] (bs "foo"))) = false.
Proof. vm_compute. reflexivity. Qed.

(** ** pkg/derivation/store/store_test.go: the memory and the Badger store *)
Definition drv_of (s : bytes) : drv :=
  match parsed s with Ok d => d | _ => Drv [] [] [] [] [] [] [] [] end.
Definition store_cases : list drv := map drv_of [f_0hm2f1; f_4wvvbi; f_ss2p4w; f_ch4959; f_h32dah; f_9lj1lk].
Definition store_paths : list (res bytes) :=
  map (fun s => Ok (bs "/nix/store/" ++ bs s))
    ["0hm2f1psjpcwg8fijsmr4wwxrx59s092-bar.drv"; "4wvvbi4jwn0prsdxb7vs673qa5h9gr7x-foo.drv";
     "ss2p4wmxijn652haqyd7dckxwl4c7hxx-bar.drv"; "ch49594n9avinrf8ip0aslidkc4lxkqv-foo.drv";
     "h32dahq0bx5rp1krcdx3a53asj21jvhk-has-multi-out.drv"; "9lj1lkjm2ag622mh4h9rpy6j607an8g2-structured-attrs.drv"]%string.
Fixpoint map_puts (s : mstore) (l : list drv) : list (res bytes) :=
  match l with [] => [] | d :: l => let '(r, s) := map_Put sha256 s d in r :: map_puts s l end.
Fixpoint badger_puts (b : db) (l : list drv) : list (res bytes) :=
  match l with [] => [] | d :: l => let '(r, b) := badger_Put sha256 b d true in r :: badger_puts b l end.
Example normal_Put : map_puts NewMapStore store_cases = store_paths.
Proof. vm_compute. reflexivity. Qed.
Example normal_Put_badger : badger_puts [] store_cases = store_paths.
Proof. vm_compute. reflexivity. Qed.
Example Get_without_Put :
  isOk (map_Get NewMapStore (bs "/nix/store/0hm2f1psjpcwg8fijsmr4wwxrx59s092-bar.drv")) = false
  /\ isOk (badger_Get attrs_name [] (bs "/nix/store/0hm2f1psjpcwg8fijsmr4wwxrx59s092-bar.drv")) = false.
Proof. vm_compute. split; reflexivity. Qed.
Definition refused (d : drv) : bool :=
  negb (isOk (fst (map_Put sha256 NewMapStore d))) && negb (isOk (fst (badger_Put sha256 [] d true))).
Example missing_input_derivation : refused (drv_of f_4wvvbi) = true.
Proof. vm_compute. reflexivity. Qed.
Example wrong_output_paths :
  refused (with_outputs (map (fun kv => (fst kv, Output (bs "/nix/store/1q0pg5zpfmznxscq3avycvf9xdvx50n3-bar") (o_algo (snd kv)) (o_hash (snd kv)))))
    (drv_of f_0hm2f1)) = true.
Proof. vm_compute. reflexivity. Qed.
Example wrong_output_name : refused (with_outputs (rename (bs "out") (bs "foo")) (drv_of f_0hm2f1)) = true.
Proof. vm_compute. reflexivity. Qed.
