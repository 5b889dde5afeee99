(** Model of the JSON library (src/Jzon.cpp, src/Jzon.h): nodes, writer and parser, at the
    level of bytes.

    Not modelled: error texts, FileReader/FileWriter, floating point conversions
    (Value::Set(float/double), ToFloat, ToDouble), memory of nodes leaked on errors.
    toupper is the one of the C locale; on a byte above 127 (a negative char) it is modelled
    as the identity, which is what glibc does, although C leaves it undefined. *)
From Coq Require Import Ascii String.
From Verif Require Import Base.
Local Open Scope list_scope.
Notation length := List.length.

(** std::string (Jzon.cpp uses no other text). *)
Definition str := list ascii.
(** A string literal of the code, Jzon.cpp. *)
Definition lit (s : string) : str := list_ascii_of_string s.
(** Jzon.cpp 454-455: characters of the escape tables. *)
Definition quote : ascii := "034".
(** Jzon.cpp 454-455: characters of the escape tables. *)
Definition bslash : ascii := "092".
(** operator== of char, Jzon.cpp. *)
Definition is (c d : ascii) : bool := Ascii.eqb c d.

(** Value::ValueType, Jzon.h. *)
Inductive vtype := VT_NULL | VT_STRING | VT_NUMBER | VT_BOOL.

(** Node and its subclasses: Value (type, valueStr), Object (children in order, duplicate names
    allowed: Object::Add, 571-578, always appends), Array. *)
Inductive node :=
| Val (t : vtype) (s : str)
| Obj (c : list (str * node))
| Arr (c : list node).

(** Format, Jzon.h 59-67, and FormatInterpreter, 31-77. *)
Record format := mkFormat { newline : bool; spacing : bool; useTabs : bool; indentSize : nat }.
(** Jzon.h 67. *)
Definition NoFormat := mkFormat false false false 0.
(** Jzon.h 66. *)
Definition StandardFormat := mkFormat true true true 1.
(** Jzon.cpp 47, 67-70. *)
Definition getSpacing (f : format) : str := if spacing f then [" "%char] else [].
(** Jzon.cpp 48, 63-66. *)
Definition getNewline (f : format) : str := if newline f then ["010"%char] else getSpacing f.
(** Jzon.cpp 51-61. *)
Definition getIndentation (f : format) (level : nat) : str :=
  if newline f then repeat (if useTabs f then "009"%char else " "%char) (indentSize f * level) else [].

(** charsUnescaped, charsEscaped and getEscaped / getUnescaped, 451-483; the second
    character of each escape ("\\", "\/", ...). *)
Definition escTable : list (ascii * ascii) :=
  [(bslash, bslash); ("/", "/"); (quote, quote); ("010", "n"); ("009", "t"); ("008", "b"); ("012", "f"); ("013", "r")]%char.
(** Jzon.cpp 459-472 *)
Fixpoint getEscaped (c : ascii) (l : list (ascii * ascii)) : option ascii :=
  match l with [] => None | (u, e) :: t => if is c u then Some e else getEscaped c t end.
(** Jzon.cpp 473-486 *)
Fixpoint getUnescaped (c : ascii) (l : list (ascii * ascii)) : option ascii :=
  match l with [] => None | (u, e) :: t => if is c e then Some u else getUnescaped c t end.

(** EscapeString, 485-507. *)
Fixpoint escape (s : str) : str :=
  match s with
  | [] => []
  | c :: t => match getEscaped c escTable with Some e => bslash :: e :: escape t | None => c :: escape t end
  end.

(** UnescapeString, 508-533: a backslash that starts no known escape is kept. *)
Fixpoint unescape (s : str) : str :=
  match s with
  | [] => []
  | c :: t =>
      if is c bslash then
        match t with
        | [] => [c]
        | d :: t' => match getUnescaped d escTable with Some u => u :: unescape t' | None => c :: unescape t end
        end
      else c :: unescape t
  end.

(** Value::ToString, 257-263. *)
Definition toString (t : vtype) (s : str) : str := match t with VT_NULL => lit "null" | _ => s end.

(** Writer::writeNode, writeObject, writeArray, writeValue, 888-940. Names are not escaped. *)
Definition quoted (s : str) : str := quote :: s ++ [quote].
(** Jzon.cpp 888-896 *)
Fixpoint writeNode (f : format) (n : node) (level : nat) {struct n} : str :=
  match n with
  | Val VT_STRING s => quoted (escape s)
  | Val t s => toString t s
  | Obj c =>
      lit "{" ++ getNewline f ++
      (fix go (first : bool) (c : list (str * node)) : str :=
         match c with
         | [] => []
         | (k, v) :: t =>
             (if first then [] else lit "," ++ getNewline f) ++ getIndentation f (S level) ++ quoted k ++ lit ":" ++
             getSpacing f ++ writeNode f v (S level) ++ go false t
         end) true c ++
      getNewline f ++ getIndentation f level ++ lit "}"
  | Arr c =>
      lit "[" ++ getNewline f ++
      (fix go (first : bool) (c : list node) : str :=
         match c with
         | [] => []
         | v :: t =>
             (if first then [] else lit "," ++ getNewline f) ++ getIndentation f (S level) ++ writeNode f v (S level) ++ go false t
         end) true c ++
      getNewline f ++ getIndentation f level ++ lit "]"
  end.
(** Jzon.cpp 877-882. *)
Definition write (f : format) (n : node) : str := writeNode f n 0.

(** RemoveWhitespace, 79-144. [bs]: the previous byte of the text is a backslash; [com],
    [multi]: inside a // comment, depth of /* comments (may be negative). *)
Definition space (c : ascii) : bool :=
  is c "010" || is c " " || is c "009" || is c "013" || is c "012".
(** Jzon.cpp 79-144: the loop. *)
Fixpoint strip (bs inStr com : bool) (multi : Z) (l : str) : str :=
  match l with
  | [] => []
  | c1 :: t =>
      let inStr := if negb bs && is c1 quote then negb inStr else inStr in
      let c2 := match t with c2 :: _ => c2 | [] => "000"%char end in
      let skip2 m cm := match t with [] => [] | c2 :: t' => strip (is c2 bslash) inStr cm m t' end in
      if negb inStr && is c1 "/" && is c2 "*" then skip2 (multi + 1)%Z com
      else if negb inStr && is c1 "*" && is c2 "/" then skip2 (multi - 1)%Z com
      else if negb inStr && is c1 "/" && is c2 "/" then skip2 multi true
      else
        let com := if negb inStr && is c1 "010" then false else com in
        let rest := strip (is c1 bslash) inStr com multi t in
        if com || (0 <? multi)%Z then rest
        else if inStr || negb (space c1) then c1 :: rest
        else rest
  end.
(** Jzon.cpp 79-144. *)
Definition removeWhitespace (json : str) : str := strip false false false 0 json.

(** Jzon.h 398-409. *)
Inductive token := T_UNKNOWN | T_OBJ_BEGIN | T_OBJ_END | T_ARRAY_BEGIN | T_ARRAY_END | T_SEPARATOR_NODE | T_SEPARATOR_NAME | T_VALUE.
(** Jzon.cpp 985-1016. *)
Definition tokenOf (c : ascii) : option token :=
  if is c "{" then Some T_OBJ_BEGIN else if is c "}" then Some T_OBJ_END else if is c "[" then Some T_ARRAY_BEGIN
  else if is c "]" then Some T_ARRAY_END else if is c "," then Some T_SEPARATOR_NODE else if is c ":" then Some T_SEPARATOR_NAME
  else None.

(** isNumber 1311-1314, interpretValue 1266-1309. *)
Definition isNumber (c : ascii) : bool :=
  ((N_of_ascii "0" <=? N_of_ascii c) && (N_of_ascii c <=? N_of_ascii "9"))%N || is c "." || is c "-".
(** toupper, Jzon.cpp 1270. *)
Definition upper (c : ascii) : ascii :=
  if ((N_of_ascii "a" <=? N_of_ascii c) && (N_of_ascii c <=? N_of_ascii "z"))%N then ascii_of_N (N_of_ascii c - 32) else c.
(** operator== of std::string, Jzon.cpp 1272-1288. *)
Definition streq (a b : str) : bool := if list_eq_dec ascii_dec a b then true else false.
(** Jzon.cpp 1266-1309 *)
Definition interpretValue (v : str) : option (vtype * str) :=
  let u := map upper v in
  if streq u (lit "NULL") then Some (VT_NULL, [])
  else if streq u (lit "TRUE") then Some (VT_BOOL, lit "true")
  else if streq u (lit "FALSE") then Some (VT_BOOL, lit "false")
  else if forallb isNumber v then Some (VT_NUMBER, v)
  else None.

(** The value buffer becomes a token, 1029-1043. *)
Definition flush (buf : str) : list token * list (vtype * str) :=
  match buf with
  | [] => ([], [])
  | _ => match interpretValue buf with
         | Some d => ([T_VALUE], [d])
         | None => ([T_UNKNOWN], [(VT_STRING, buf)])
         end
  end.

(** tokenize 973-1058 with readString 1239-1264: what is pushed on the two queues.
    [m]: inside a string (the previous byte of the string is a backslash, bytes read so
    far). The string's data is pushed before the buffer's, its token after. *)
Fixpoint tok (m : option (bool * str)) (buf : str) (l : str) : list token * list (vtype * str) :=
  match m with
  | Some (b, s) =>
      let stop := let '(tk, dt) := flush buf in (tk ++ [T_VALUE], (VT_STRING, s) :: dt) in
      match l with
      | [] => stop
      | c :: t =>
          if negb b && is c quote then
            let '(tk', dt') := tok None [] t in (fst stop ++ tk', snd stop ++ dt')
          else tok (Some (is c bslash, s ++ [c])) buf t
      end
  | None =>
      match l with
      | [] => ([], [])
      | c :: t =>
          match tokenOf c with
          | Some k => let '(tk, dt) := flush buf in let '(tk', dt') := tok None [] t in (tk ++ k :: tk', dt ++ dt')
          | None =>
              if is c quote then tok (Some (false, [])) buf t
              else match t with
                   | [] => flush (buf ++ [c])           (* the last byte *)
                   | _ => tok None (buf ++ [c]) t
                   end
          end
      end
  end.
(** Jzon.cpp 973-1058 *)
Definition tokenize (json : str) : list token * list (vtype * str) := tok None [] json.

(** assemble, 1059-1237. The stack holds (name, node); its bottom is the root node, which is
    filled in place. [AUB]: front() of an empty queue. *)
Inductive asm :=
| AOk (root : node) (data : list (vtype * str))
| AErr (root : node) (toks : list token) (data : list (vtype * str))
| AUB.

(** Jzon.cpp 1083-1098: the node at the bottom of the stack, filled in place. *)
Definition rootNow (stack : list (str * node)) (root : node) : node := snd (last stack ([], root)).
(** Jzon.cpp 1202-1209: the node made of a datum. *)
Definition mkValue (d : vtype * str) : node :=
  match fst d with VT_STRING => Val VT_STRING (unescape (snd d)) | t => Val t (snd d) end.
(** Jzon.cpp 1147-1162, 1212-1217: Object::Add and Array::Add of a finished node. *)
Definition addChild (name : str) (child parent : node) : option node :=
  match parent with
  | Obj c => Some (Obj (c ++ [(name, child)]))
  | Arr c => Some (Arr (c ++ [child]))
  | Val _ _ => None
  end.
(** Jzon.cpp 1132-1141. *)
Definition endMatches (k : token) (n : node) : bool :=
  match k, n with T_OBJ_END, Obj _ => true | T_ARRAY_END, Arr _ => true | _, _ => false end.

(** Jzon.cpp 1059-1237 *)
Fixpoint assemble (toks : list token) (data : list (vtype * str)) (stack : list (str * node)) (name : str) (root : node) : asm :=
  match toks with
  | [] => AOk (rootNow stack root) data
  | T_UNKNOWN :: t =>
      match data with [] => AUB | _ :: d => AErr (rootNow stack root) t d end
  | T_OBJ_BEGIN :: t =>
      match stack, root with
      | [], Obj _ => assemble t data [(name, root)] [] root
      | [], _ => AErr root t data
      | _, _ => assemble t data ((name, Obj []) :: stack) [] root
      end
  | T_ARRAY_BEGIN :: t =>
      match stack, root with
      | [], Arr _ => assemble t data [(name, root)] [] root
      | [], _ => AErr root t data
      | _, _ => assemble t data ((name, Arr []) :: stack) [] root
      end
  | (T_OBJ_END as k) :: t | (T_ARRAY_END as k) :: t =>
      match stack with
      | [] => AErr root t data
      | (nm, n) :: s =>
          if negb (endMatches k n) then AErr (rootNow stack root) t data
          else match s with
          | [] => assemble t data [] name n
          | (nm2, p) :: s2 =>
              match addChild nm n p with
              | Some p' => assemble t data ((nm2, p') :: s2) name root
              | None => AErr (rootNow s root) t data
              end
          end
      end
  | T_VALUE :: t =>
      let value :=
        match stack with
        | [] =>
            match root, data with
            | Val _ _, d :: dt => assemble t dt [(name, mkValue d)] [] root
            | Val _ _, [] => AUB
            | _, _ => AErr root t data
            end
        | (nm, p) :: s =>
            match data with
            | [] => AUB
            | d :: dt =>
                match addChild name (mkValue d) p with
                | Some p' => assemble t dt ((nm, p') :: s) [] root
                | None => assemble t dt stack [] root
                end
            end
        end in
      match t with
      | T_SEPARATOR_NAME :: t' =>
          match data with
          | [] => AUB
          | (VT_STRING, s) :: dt => assemble t' dt stack s root
          | _ => AErr (rootNow stack root) t' data
          end
      | _ => value
      end
  | T_SEPARATOR_NAME :: t | T_SEPARATOR_NODE :: t => assemble t data stack name root
  end.

(** Parser: its two queues live as long as the parser. SetJson and Parse, 956-967. *)
Record parser := mkParser { ptokens : list token; pdata : list (vtype * str) }.
(** Jzon.cpp 943-952. *)
Definition newParser := mkParser [] [].
Inductive parsed :=
| Parsed (p : parser) (root : node)          (* Parse returned true *)
| Failed (p : parser) (root : node)          (* Parse returned false *)
| Undefined.
(** Jzon.cpp 954-967. *)
Definition parse (p : parser) (root : node) (json : str) : parsed :=
  let '(tk, dt) := tokenize (removeWhitespace json) in
  match assemble (ptokens p ++ tk) (pdata p ++ dt) [] [] root with
  | AOk r d => Parsed (mkParser [] d) r
  | AErr r t d => Failed (mkParser t d) r
  | AUB => Undefined
  end.
