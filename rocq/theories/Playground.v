(** Model of the playground page, docs/src/components/PlaygroundClient.tsx: the component's state
    (lines 36-71), its handlers and what the buttons and panels depend on.  An event handler runs to
    its end before the next event, and the page is drawn again in between (React flushes the state
    after a click); a call of the library settles at any later moment.  Not modelled: console output,
    styles, translations, the download links (lines 238-248, 436-448). *)
From Coq Require Import List Bool Arith NArith ZArith.
From Coq Require Import Strings.String Strings.Byte.
From Verif Require Import Res Bytes Text Inputs Combined JsonText.
Import ListNotations.
Local Open Scope nat_scope.

(** The object passed as circuitFiles.  The page builds it with two members (lines 53-63, 94, 287-290,
    304-307): there is no symContent in it. *)
Record files := Files { f_r1cs : list byte; f_wasm : list byte; f_sym : option text }.
Definition page_files (r1cs wasm : list byte) : files := Files r1cs wasm None.

Inductive tab := Sudoku | Custom.
Inductive mode := Encrypt | Decrypt.

Section Page.
  (** The library: encrypt with its random draws [coins], the error it may reject with; decrypt. *)
  Context {coins enc_error dec_error : Type}.
  Context (lib_encrypt : coins -> list byte -> text -> json -> list byte -> bool -> res enc_error (list byte)).
  Context (lib_decrypt : list byte -> list byte -> list byte -> json -> res dec_error (list byte)).
  (** JSON.parse's reading of large numbers and TextDecoder's of bytes that are no UTF-8 (JsonText.v). *)
  Context (round : text -> json) (lossy : list byte -> text).

  (** encrypt (zkenc.ts:310-322): it begins with encap, and encap with parseSymFile(circuitFiles.symContent)
      (zkenc.ts:85-88), that is with symContent.trim() (sym_parser.ts:27), a TypeError if there is none. *)
  Inductive encrypt_error := NoTrimOfUndefined | Rejected (e : enc_error).
  Definition call_encrypt (co : coins) (fs : files) (inputs : json) (message : list byte) (include : bool)
    : res encrypt_error (list byte) :=
    match f_sym fs with
    | None => Err NoTrimOfUndefined
    | Some sym => rmap_err Rejected (lib_encrypt co (f_r1cs fs) sym inputs message include)
    end.

  (** The texts setError is called with. *)
  Inductive page_error :=
  | EnterMessage | NotLoaded | GeneratePuzzle | NoCiphertext | FillSolution | SolutionLength | Unsolvable
  | UploadBoth | EnterPublic | InvalidJson | InvalidFile | LoadFailed
  | EncryptFailed (e : option encrypt_error) | BadPublicJson | DecryptFailed (e : option dec_error).

  (** A call of the library in flight, with the arguments it was made with. *)
  Inductive call :=
  | CallEncrypt (co : coins) (fs : files) (inputs : json) (message : list byte) (include : bool)
  | CallDecrypt (fs : files) (ciphertext : list byte) (inputs : json)
  | CallCustomEncrypt (co : coins) (fs : files) (inputs : json) (message : list byte) (include : bool)
  | CallCustomDecrypt (fs : files) (ciphertext : list byte) (inputs : json).

  (** The state (lines 36-71) and the calls in flight. *)
  Record page := Page {
    p_tab : tab; p_mode : mode; p_message : text; p_puzzle : list json; p_solution : list json;
    p_ciphertext : option (list byte); p_decrypted : text; p_loading : bool; p_error : option page_error;
    p_uploaded : option (list byte); p_circuit : option files;
    c_files : option files; c_public : text; c_private : text; c_message : text;
    c_ciphertext : option (list byte); c_decrypted : text; c_include : bool;
    p_calls : list call }.

  (** The initial values (lines 36-71). *)
  Definition first_page : page :=
    Page Sudoku Encrypt [] [] [] None [] false None None None None [] [] [] None [] true [].

  (** The setters useState gives. *)
  Definition set_tab x s := let 'Page _ b c d e f g h i j k l m n o p q r u := s in Page x b c d e f g h i j k l m n o p q r u.
  Definition set_mode x s := let 'Page a _ c d e f g h i j k l m n o p q r u := s in Page a x c d e f g h i j k l m n o p q r u.
  Definition set_message x s := let 'Page a b _ d e f g h i j k l m n o p q r u := s in Page a b x d e f g h i j k l m n o p q r u.
  Definition set_puzzle x s := let 'Page a b c _ e f g h i j k l m n o p q r u := s in Page a b c x e f g h i j k l m n o p q r u.
  Definition set_solution x s := let 'Page a b c d _ f g h i j k l m n o p q r u := s in Page a b c d x f g h i j k l m n o p q r u.
  Definition set_ciphertext x s := let 'Page a b c d e _ g h i j k l m n o p q r u := s in Page a b c d e x g h i j k l m n o p q r u.
  Definition set_decrypted x s := let 'Page a b c d e f _ h i j k l m n o p q r u := s in Page a b c d e f x h i j k l m n o p q r u.
  Definition set_loading x s := let 'Page a b c d e f g _ i j k l m n o p q r u := s in Page a b c d e f g x i j k l m n o p q r u.
  Definition set_error x s := let 'Page a b c d e f g h _ j k l m n o p q r u := s in Page a b c d e f g h x j k l m n o p q r u.
  Definition set_uploaded x s := let 'Page a b c d e f g h i _ k l m n o p q r u := s in Page a b c d e f g h i x k l m n o p q r u.
  Definition set_circuit x s := let 'Page a b c d e f g h i j _ l m n o p q r u := s in Page a b c d e f g h i j x l m n o p q r u.
  Definition set_cfiles x s := let 'Page a b c d e f g h i j k _ m n o p q r u := s in Page a b c d e f g h i j k x m n o p q r u.
  Definition set_cpublic x s := let 'Page a b c d e f g h i j k l _ n o p q r u := s in Page a b c d e f g h i j k l x n o p q r u.
  Definition set_cprivate x s := let 'Page a b c d e f g h i j k l m _ o p q r u := s in Page a b c d e f g h i j k l m x o p q r u.
  Definition set_cmessage x s := let 'Page a b c d e f g h i j k l m n _ p q r u := s in Page a b c d e f g h i j k l m n x p q r u.
  Definition set_cciphertext x s := let 'Page a b c d e f g h i j k l m n o _ q r u := s in Page a b c d e f g h i j k l m n o x q r u.
  Definition set_cdecrypted x s := let 'Page a b c d e f g h i j k l m n o p _ r u := s in Page a b c d e f g h i j k l m n o p x r u.
  Definition set_cinclude x s := let 'Page a b c d e f g h i j k l m n o p q _ u := s in Page a b c d e f g h i j k l m n o p q x u.
  Definition set_calls x s := let 'Page a b c d e f g h i j k l m n o p q r _ := s in Page a b c d e f g h i j k l m n o p q r x.

  (** Truth of a JavaScript string, [x === 0], a new call, the settling of one. *)
  Definition nonempty (t : text) : bool := match t with [] => false | _ => true end.
  Definition is_zero (x : json) : bool := match x with JInt z => (z =? 0)%Z | _ => false end.
  Definition is_tab (s : page) (t : tab) : bool := match p_tab s, t with Sudoku, Sudoku => true | Custom, Custom => true | _, _ => false end.
  Definition is_mode (s : page) (m : mode) : bool := match p_mode s, m with Encrypt, Encrypt => true | Decrypt, Decrypt => true | _, _ => false end.
  Definition start (c : call) (s : page) : page := set_calls (p_calls s ++ [c]) s.

  (** handleGenerateRandom (lines 108-113); the generator writes -1 for a blank (lines 10-14). *)
  Definition generate (cells : list Z) (s : page) : page :=
    set_error None (set_solution [] (set_puzzle (map (fun n => JInt (if (n =? -1)%Z then 0 else n)) cells) s)).
  (** handleAutoSolve (lines 115-137); [answer]: what the solver returns, None if it throws (lines 16-33).
      The button (lines 731-735): loading || !puzzle.length. *)
  Definition auto_solve (answer : option (list Z)) (s : page) : page :=
    if negb (is_tab s Sudoku && is_mode s Decrypt) || p_loading s || Nat.eqb (List.length (p_puzzle s)) 0 then s
    else match answer with
         | Some cells =>
             if existsb (fun n => (n =? -1)%Z) cells then set_solution [] (set_error (Some Unsolvable) s)
             else set_error None (set_solution (map JInt cells) s)
         | None => set_solution [] (set_error (Some Unsolvable) s)
         end.
  (** handleEncrypt (lines 139-180); the button (lines 618-621): loading || !message. *)
  Definition click_encrypt (co : coins) (s : page) : page :=
    if negb (is_tab s Sudoku && is_mode s Encrypt) || p_loading s || negb (nonempty (p_message s)) then s
    else match p_circuit s with
         | None => set_error (Some NotLoaded) s
         | Some fs =>
             if negb (Nat.eqb (List.length (p_puzzle s)) 81) then set_error (Some GeneratePuzzle) s
             else start (CallEncrypt co fs (JObj [(lit "puzzle", JArr (p_puzzle s))]) (text_encode (p_message s)) true)
                    (set_error None (set_loading true s))
         end.
  (** handleDecrypt (lines 182-236); the button (lines 757-760): loading || !(uploadedCiphertext || ciphertext). *)
  Definition ciphertext_to_use (s : page) : option (list byte) :=
    match p_uploaded s with Some b => Some b | None => p_ciphertext s end.
  Definition click_decrypt (s : page) : page :=
    if negb (is_tab s Sudoku && is_mode s Decrypt) || p_loading s then s
    else match ciphertext_to_use s with
         | None => s
         | Some ct =>
             match p_circuit s with
             | None => set_error (Some NotLoaded) s
             | Some fs =>
                 if existsb is_zero (p_solution s) then set_error (Some FillSolution) s
                 else if negb (Nat.eqb (List.length (p_solution s)) 81) then set_error (Some SolutionLength) s
                 else start (CallDecrypt fs ct (JObj [(lit "puzzle", JArr (p_puzzle s)); (lit "solution", JArr (p_solution s))]))
                        (set_decrypted [] (set_error None (set_loading true s)))
             end
         end.
  (** reader.onload of handleUploadCiphertext (lines 250-276). *)
  Definition read_public (b : list byte) : res js_comb_error json :=
    get_public_input (text_decode lossy) (js_json_parse round) (JsBytes b 0 (blen b)).
  Definition upload (b : list byte) (s : page) : page :=
    let s := set_uploaded (Some b) s in
    let s := match read_public b with
             | Ok (JObj kvs) =>
                 match hm_get (lit "puzzle") kvs with
                 | Some (JArr cells) => set_error None (set_solution cells (set_puzzle cells s))
                 | _ => s
                 end
             | _ => s
             end in
    set_mode Decrypt s.
  (** The cells of the two grids (lines 490-530, 598, 714, 748-752): given cells of the solution are locked.
      parseInt has no radix there; the fields hold one character, so there is no prefix 0x. *)
  Definition put_cell (t : text) (i : nat) (values : list json) (set : list json -> page -> page) (s : page) : page :=
    let v := match js_parse_int t with Some z => z | None => 0%Z end in
    if ((0 <=? v) && (v <=? 9))%Z then set (firstn i values ++ [JInt v] ++ skipn (S i) values) s else s.
  Definition edit_puzzle (i : nat) (t : text) (s : page) : page :=
    if is_tab s Sudoku && Nat.ltb i (List.length (p_puzzle s)) then put_cell t i (p_puzzle s) set_puzzle s else s.
  Definition grid_shown (s : page) : list json :=
    match p_solution s with [] => p_puzzle s | _ => p_solution s end.
  Definition locked (s : page) (i : nat) : bool :=
    match nth_error (p_puzzle s) i with Some x => negb (is_zero x) | None => true end.
  Definition edit_solution (i : nat) (t : text) (s : page) : page :=
    if is_tab s Sudoku && is_mode s Decrypt && Nat.ltb i (List.length (grid_shown s)) && negb (locked s i)
    then put_cell t i (grid_shown s) set_solution s else s.

  (** The custom tab.  reader.onload of the two circuit uploads (lines 279-311). *)
  Definition upload_r1cs (b : list byte) (s : page) : page :=
    set_error None (set_cfiles (Some (page_files b (match c_files s with Some fs => f_wasm fs | None => [] end))) s).
  Definition upload_wasm (b : list byte) (s : page) : page :=
    set_error None (set_cfiles (Some (page_files (match c_files s with Some fs => f_r1cs fs | None => [] end) b)) s).
  Definition both_files (s : page) : option files :=
    match c_files s with
    | Some fs => match f_r1cs fs, f_wasm fs with [], _ => None | _, [] => None | _, _ => Some fs end
    | None => None
    end.
  (** handleCustomEncrypt (lines 313-358); the button (lines 978-981). *)
  Definition click_custom_encrypt (co : coins) (s : page) : page :=
    if negb (is_tab s Custom && is_mode s Encrypt) || p_loading s || negb (nonempty (c_message s)) then s
    else match c_files s with
         | None => s
         | Some _ =>
             match both_files s with
             | None => set_error (Some UploadBoth) s
             | Some fs =>
                 if negb (nonempty (c_public s)) then set_error (Some EnterPublic) s
                 else match js_json_parse round (c_public s) with
                      | None => set_error (Some BadPublicJson) s
                      | Some inputs =>
                          start (CallCustomEncrypt co fs inputs (text_encode (c_message s)) (c_include s))
                            (set_error None (set_loading true s))
                      end
             end
         end.
  (** handleCustomDecrypt (lines 360-408); the button (lines 1190-1193). *)
  Definition full_inputs (s : page) : text := if nonempty (c_private s) then c_private s else c_public s.
  Definition click_custom_decrypt (s : page) : page :=
    if negb (is_tab s Custom && is_mode s Decrypt) || p_loading s then s
    else match c_ciphertext s, c_files s with
         | Some ct, Some _ =>
             match both_files s with
             | None => set_error (Some UploadBoth) s
             | Some fs =>
                 match js_json_parse round (full_inputs s) with
                 | None => set_error (Some InvalidJson) s
                 | Some inputs =>
                     start (CallCustomDecrypt fs ct inputs) (set_cdecrypted [] (set_error None (set_loading true s)))
                 end
             end
         | _, _ => s
         end.
  (** reader.onload of handleCustomCiphertextUpload (lines 410-434); JSON.stringify(.., null, 2) writes
      what serde_json's pretty printer writes. *)
  Definition custom_upload (b : list byte) (s : page) : page :=
    let s := set_cciphertext (Some b) s in
    let s := match read_public b with Ok v => set_error None (set_cpublic (pretty 0 v) s) | _ => s end in
    set_mode Decrypt s.
  (** reader.onload of the two JSON uploads (handlePublicInputFileUpload, lines 450-468;
      handlePrivateInputFileUpload, lines 470-488). *)
  Definition public_file (t : text) (s : page) : page :=
    match js_json_parse round t with
    | Some v => set_error None (set_cpublic (pretty 0 v) s)
    | None => set_error (Some InvalidFile) s
    end.
  Definition private_file (t : text) (s : page) : page :=
    match js_json_parse round t with
    | Some v => set_error None (set_cprivate (pretty 0 v) s)
    | None => set_error (Some InvalidFile) s
    end.

  (** A call settles: what is after the await, and finally setLoading(false) (lines 172-179, 220-235,
      349-357, 392-407). *)
  Definition success_text : text := lit "Decryption successful!".
  Definition shown_text (b : list byte) : text :=
    let t := text_decode lossy b in if nonempty t then t else success_text.
  Definition settle (c : call) (s : page) : page :=
    set_loading false
      match c with
      | CallEncrypt co fs inputs message include =>
          match call_encrypt co fs inputs message include with
          | Ok b => set_error None (set_ciphertext (Some b) s)
          | Err e => set_error (Some (EncryptFailed (Some e))) s
          | Panic => set_error (Some (EncryptFailed None)) s
          end
      | CallDecrypt fs ct inputs =>
          match lib_decrypt (f_r1cs fs) (f_wasm fs) ct inputs with
          | Ok b => set_decrypted (shown_text b) s
          | Err e => set_error (Some (DecryptFailed (Some e))) s
          | Panic => set_error (Some (DecryptFailed None)) s
          end
      | CallCustomEncrypt co fs inputs message include =>
          match call_encrypt co fs inputs message include with
          | Ok b => set_error None (set_cciphertext (Some b) s)
          | Err e => set_error (Some (EncryptFailed (Some e))) s
          | Panic => set_error (Some (EncryptFailed None)) s
          end
      | CallCustomDecrypt fs ct inputs =>
          match lib_decrypt (f_r1cs fs) (f_wasm fs) ct inputs with
          | Ok b => set_cdecrypted (shown_text b) s
          | Err e => set_error (Some (DecryptFailed (Some e))) s
          | Panic => set_error (Some (DecryptFailed None)) s
          end
      end.
  Definition settle_nth (i : nat) (s : page) : page :=
    match nth_error (p_calls s) i with
    | Some c => settle c (set_calls (firstn i (p_calls s) ++ skipn (S i) (p_calls s)) s)
    | None => s
    end.

  (** What can happen. *)
  Inductive event :=
  | SelectTab (t : tab) | SelectMode (m : mode) | TypeMessage (t : text) | Generate (cells : list Z) | AutoSolve (answer : option (list Z))
  | EditPuzzle (i : nat) (t : text) | EditSolution (i : nat) (t : text) | ClickEncrypt (co : coins) | ClickDecrypt | Upload (b : list byte)
  | CircuitLoaded (r1cs wasm : list byte) | CircuitFailed
  | UploadR1cs (b : list byte) | UploadWasm (b : list byte) | TypePublic (t : text) | TypePrivate (t : text) | TypeCustomMessage (t : text)
  | Include (b : bool) | PublicFile (t : text) | PrivateFile (t : text) | CustomUpload (b : list byte)
  | ClickCustomEncrypt (co : coins) | ClickCustomDecrypt
  | Settles (i : nat).
  Definition step (s : page) (e : event) : page :=
    match e with
    | SelectTab t => set_tab t s
    | SelectMode m => set_mode m s
    | TypeMessage t => set_message t s
    | Generate cells => generate cells s
    | AutoSolve answer => auto_solve answer s
    | EditPuzzle i t => edit_puzzle i t s
    | EditSolution i t => edit_solution i t s
    | ClickEncrypt co => click_encrypt co s
    | ClickDecrypt => click_decrypt s
    | Upload b => upload b s
    (* loadCircuits (lines 76-101) *)
    | CircuitLoaded r1cs wasm => set_circuit (Some (page_files r1cs wasm)) s
    | CircuitFailed => set_error (Some LoadFailed) s
    | UploadR1cs b => upload_r1cs b s
    | UploadWasm b => upload_wasm b s
    | TypePublic t => set_cpublic t s
    | TypePrivate t => set_cprivate t s
    | TypeCustomMessage t => set_cmessage t s
    | Include b => set_cinclude b s
    | PublicFile t => public_file t s
    | PrivateFile t => private_file t s
    | CustomUpload b => custom_upload b s
    | ClickCustomEncrypt co => click_custom_encrypt co s
    | ClickCustomDecrypt => click_custom_decrypt s
    | Settles i => settle_nth i s
    end.
  Definition run_page (h : list event) : page := fold_left step h first_page.

  (** ** What the page shows *)
  (** "Encryption successful!" (lines 634-640, 994-1000). *)
  Definition says_encrypted (s : page) : bool :=
    match p_mode s with
    | Decrypt => false
    | Encrypt => match p_tab s with
                 | Sudoku => match p_ciphertext s with Some _ => true | None => false end
                 | Custom => match c_ciphertext s with Some _ => true | None => false end
                 end
    end.
  (** The decrypted message, if any (lines 777-785, 1210-1219). *)
  Definition says_decrypted (s : page) : option text :=
    match p_mode s with
    | Encrypt => None
    | Decrypt => let t := match p_tab s with Sudoku => p_decrypted s | Custom => c_decrypted s end in
                 if nonempty t then Some t else None
    end.
End Page.
