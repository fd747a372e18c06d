(** Model of the password data object, the documented user of the decrypted data (docs/file_data.md, docs/password_data.md).
    Sources: include/password_data.h, src/password_data.cpp, include/file_data.h.
    src/CMakeLists.txt leaves password_data.cpp out of the build, and it does not compile against the present Bytes class:
    [dec_data] has become a pointer, and popFirstBytes, setBytes of a vector and charVecToString are gone.
    They are modelled by what their names and the comments here and in dataheader.cpp 980 say:
    popFirstBytes takes the bytes off the front, or gives an empty optional if there are too few; a [Bytes] grows as needed.
    Strings are byte strings; logging is not modelled. *)
From Verif Require Import Base MiscModel HeaderModel.
Open Scope N_scope.

(** PasswordSet: password_data.h 7-33; PasswordSiteSet: 35-75 *)
Record pset := mkPset { p_site : bytes; p_user : bytes; p_mail : bytes; p_pass : bytes }.
Record sset := mkSset { s_user : bytes; s_mail : bytes; s_pass : bytes }.
(** PasswordSet::isValid: password_data.h 13-32 *)
Definition pset_isValid (p : pset) : bool :=
  if 255 <? lenN (p_site p) then false else if 255 <? lenN (p_user p) then false
  else if 255 <? lenN (p_mail p) then false else if 255 <? lenN (p_pass p) then false else true.
(** PasswordSiteSet(): password_data.h 42; the three setters: 49-71; the constructor: 43-47 *)
Definition sset_default : sset := mkSset [] [] [].
Definition setUsername (v : bytes) (s : sset) : outcome sset :=
  if 255 <? lenN v then Throw InvalidArgument else Ret (mkSset v (s_mail s) (s_pass s)).
Definition setEmail (v : bytes) (s : sset) : outcome sset :=
  if 255 <? lenN v then Throw InvalidArgument else Ret (mkSset (s_user s) v (s_pass s)).
Definition setPassword (v : bytes) (s : sset) : outcome sset :=
  if 255 <? lenN v then Throw InvalidArgument else Ret (mkSset (s_user s) (s_mail s) v).
Definition newSset (u m p : bytes) : outcome sset :=
  s <- setUsername u sset_default ;; s <- setEmail m s ;; setPassword p s.

(** ** siteMap: password_data.h 83, a std::unordered_map.  Its entries are kept in a list without repeated keys; the order in which
    the code iterates over it is chosen by the library and is a parameter of the functions that iterate. *)
Definition sites := list (bytes * list sset).
Fixpoint m_get (k : bytes) (m : sites) : option (list sset) :=
  match m with [] => None | (k', v) :: r => if eqb_bytes k k' then Some v else m_get k r end.
Fixpoint m_put (k : bytes) (v : list sset) (m : sites) : sites :=
  match m with [] => [(k, v)] | (k', v') :: r => if eqb_bytes k k' then (k', v) :: r else (k', v') :: m_put k v r end.
Definition m_count (k : bytes) (m : sites) : N := match m_get k m with None => 0 | Some _ => 1 end.
(** operator[] makes an empty vector for a new key *)
Definition m_at (k : bytes) (m : sites) : list sset := match m_get k m with None => [] | Some v => v end.

(** ** constructFileData: password_data.cpp 11-114 (noexcept) *)
(** FileDataStruct: file_data.h 10-62 *)
Record fds := mkFds { fd_mode : option N; fd_data : bytes }.
(** std::vector::back() and a change of that element: undefined on an empty vector *)
Fixpoint on_back (f : sset -> outcome sset) (l : list sset) : outcome (list sset) :=
  match l with
  | [] => Crash Undefined
  | [s] => s' <- f s ;; Ret [s']
  | s :: r => r' <- on_back f r ;; Ret (s :: r')
  end.
Definition popFirstBytes (n : N) (d : bytes) : option (bytes * bytes) :=
  if lenN d <? n then None else Some (takeN n d, dropN n d).
(** one size byte and the data behind it: password_data.cpp 26-85 *)
Definition pop_part (d : bytes) : option (bytes * bytes) :=
  match popFirstBytes 1 d with
  | Some ([b], d') => popFirstBytes (b2n b) d'
  | _ => None
  end.
(** what is left of the data when a part is missing: the size byte is taken off already *)
Definition pop_left (d : bytes) : bytes := match popFirstBytes 1 d with Some (_, d') => d' | None => d end.
(** password_data.cpp 86-108, by the index of the part *)
Definition store_part (i : N) (site v : bytes) (m : sites) : outcome (bytes * sites) :=
  match i with
  | 0 => Ret (v, if m_count v m =? 0 then m_put v [] m else m_put v (m_at v m ++ [sset_default]) m)
  | 1 => l <- on_back (setUsername v) (m_at site m) ;; Ret (site, m_put site l m)
  | 2 => l <- on_back (setEmail v) (m_at site m) ;; Ret (site, m_put site l m)
  | _ => l <- on_back (setPassword v) (m_at site m) ;; Ret (site, m_put site l m)
  end.
(** the loop over the parts of one set: password_data.cpp 24-110; [inl]: a part is missing *)
Fixpoint read_parts (n : nat) (i : N) (site d : bytes) (m : sites) : outcome ((sites * bytes) + (sites * bytes)) :=
  match n with
  | O => Ret (inr (m, d))
  | S n' =>
      match pop_part d with
      | None => Ret (inl (m, pop_left d))
      | Some (v, d') => '(site, m) <- store_part i site v m ;; read_parts n' (i + 1) site d' m
      end
  end.
(** the loop over the sets: password_data.cpp 18-111 *)
Fixpoint read_sets (fuel : nat) (d : bytes) (m : sites) : outcome (sites * bytes * option errcode) :=
  match fuel with
  | O => OutOfFuel
  | S k =>
      if lenN d =? 0 then Ret (m, d, None)
      else
        r <- read_parts 4 0 [] d m ;;
        match r with
        | inl (m, d) => Ret (m, d, Some ERR_FILEDATA_INVALID)
        | inr (m, d) => read_sets k d m
        end
  end.
(** gives the object, what is left in the struct passed by reference, and the error code, if any *)
Definition constructFileData (f : fds) (m : sites) : outcome (sites * fds * option errcode) :=
  noexcept (
    mode <- match fd_mode f with Some x => Ret x | None => Throw RuntimeError end ;;
    if negb (mode =? 1) then Ret (m, f, Some ERR_FILEMODE_INVALID)
    else '(m, d, e) <- read_sets (S (length (fd_data f))) (fd_data f) [] ;; Ret (m, mkFds (fd_mode f) d, e)).

(** ** getBytes and getFileData: password_data.cpp 123-164, 116-121; [order] is the map in the order of the iteration *)
(** A range of iterators as in lines 142, 147 and 152.  Both ends come from a [begin()], and getUsername, getEmail and getPassword
    return a new string each time: the two iterators belong to different strings, which is undefined for every content. *)
Definition range_of_two_temporaries (a b : bytes) : outcome bytes := Crash Undefined.
Definition put_part (v : bytes) (ret : bytes) : bytes := ret ++ n2b (lenN v) :: v.
(** the loop over the sets of one site: password_data.cpp 135-161; [item.second[i]] without a check *)
Fixpoint get_sets (fuel : nat) (site : bytes) (l : list sset) (i : nat) (ret : bytes) : outcome bytes :=
  match fuel with
  | O => OutOfFuel
  | S k =>
      let ret := put_part site ret in
      match nth_error l i with
      | None => Crash Undefined
      | Some s =>
          u <- range_of_two_temporaries (s_user s) (s_user s) ;;
          m <- range_of_two_temporaries (s_mail s) (s_mail s) ;;
          p <- range_of_two_temporaries (s_pass s) (s_pass s) ;;
          let ret := put_part p (put_part m (put_part u ret)) in
          if Nat.eqb (S i) (length l) then Ret ret else get_sets k site l (S i) ret
      end
  end.
Fixpoint getBytes (order : sites) (ret : bytes) : outcome bytes :=
  match order with
  | [] => Ret ret
  | (site, l) :: r =>
      if negb (lenN l mod 3 =? 0) then Throw RuntimeError
      else ret <- get_sets (S (length l)) site l 0 ret ;; getBytes r ret
  end.
Definition getFileData (order : sites) : outcome fds := b <- getBytes order [] ;; Ret (mkFds (Some 1) b).

(** ** getSets: password_data.cpp 166-197 (noexcept) *)
(** std::tolower in the "C" locale *)
Definition tolower (b : byte) : byte := let n := b2n b in if (65 <=? n) && (n <=? 90) then n2b (n + 32) else b.
Fixpoint prefixb (p s : bytes) : bool :=
  match p, s with
  | [], _ => true
  | a :: p', b :: s' => Byte.eqb a b && prefixb p' s'
  | _, [] => false
  end.
(** std::string::find(...) != npos *)
Fixpoint findb (p s : bytes) : bool := prefixb p s || match s with [] => false | _ :: r => findb p r end.
Definition sets_of (e : bytes * list sset) : list pset := map (fun s => mkPset (fst e) (s_user s) (s_mail s) (s_pass s)) (snd e).
(** [sort] is std::sort with the comparison of the sites: line 195 *)
Definition getSets (sort : list pset -> list pset) (order : sites) (substring : bytes) (sorted : bool) : list pset :=
  let sub := map tolower substring in
  let all :=
    match substring with
    | [] => flat_map sets_of order
    | _ => flat_map (fun e => if findb sub (map tolower (fst e)) then sets_of e else []) order
    end in
  if sorted then sort all else all.

(** ** addPw, remPw, editPw: password_data.cpp 199-211; the last two are empty *)
Definition addPw (p : pset) (m : sites) : outcome sites :=
  if negb (pset_isValid p) then Throw InvalidArgument
  else
    let m := if m_count (p_site p) m =? 0 then m_put (p_site p) [] m else m in
    s <- newSset (p_user p) (p_mail p) (p_pass p) ;;
    Ret (m_put (p_site p) (m_at (p_site p) m ++ [s]) m).
Definition remPw (p : pset) (m : sites) : sites := m.
Definition editPw (p : pset) (m : sites) : sites := m.

(** ** The object under use *)
Inductive pw_op := AddPw (p : pset) | RemPw (p : pset) | EditPw (p : pset) | Construct (f : fds).
(** an exception is caught by the caller; the object stays as it is *)
Definition pw_step (m : sites) (o : pw_op) : outcome sites :=
  match o with
  | AddPw p => match addPw p m with Throw _ => Ret m | r => r end
  | RemPw p => Ret (remPw p m)
  | EditPw p => Ret (editPw p m)
  | Construct f => '(m, _, _) <- constructFileData f m ;; Ret m
  end.
Fixpoint pw_run (m : sites) (l : list pw_op) : outcome sites :=
  match l with [] => Ret m | o :: r => m <- pw_step m o ;; pw_run m r end.
