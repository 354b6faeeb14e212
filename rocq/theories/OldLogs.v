(** Generated by tools/gen_old_logs.py from guarantee_11-bit.log and limit-13_v2.log in
    scripts/add-sub-special-chains. Do not edit. The lines up to "no guarantee", 32 in a literal. *)
From Coq Require Import String List.
Local Open Scope string_scope.

Definition g11_0 : string := "    1 /0/ [◖ 1 ◗]
    3 /1/ [◖ 1 ◗, ◖ 3 =  1 + 1·2^1 ◗]
    5 /1/ [◖ 1 ◗, ◖ 5 =  1 + 1·2^2 ◗]
    7 /1/ [◖ 1 ◗, ◖ 7 = -1 + 1·2^3 ◗]
    9 /1/ [◖ 1 ◗, ◖ 9 =  1 + 1·2^3 ◗]
   11 /2/ [◖ 1 ◗, ◖ 3 =  1 + 1·2^1 ◗, ◖ 11 = -1 + 3·2^2 ◗]
   13 /2/ [◖ 1 ◗, ◖ 3 =  1 + 1·2^1 ◗, ◖ 13 =  1 + 3·2^2 ◗]
   15 /1/ [◖ 1 ◗, ◖ 15 = -1 + 1·2^4 ◗]
   17 /1/ [◖ 1 ◗, ◖ 17 =  1 + 1·2^4 ◗]
   19 /2/ [◖ 1 ◗, ◖ 5 =  1 + 1·2^2 ◗, ◖ 19 = -1 + 5·2^2 ◗]
   21 /2/ [◖ 1 ◗, ◖ 5 =  1 + 1·2^2 ◗, ◖ 21 =  1 + 5·2^2 ◗]
   23 /2/ [◖ 1 ◗, ◖ 3 =  1 + 1·2^1 ◗, ◖ 23 = -1 + 3·2^3 ◗]
   25 /2/ [◖ 1 ◗, ◖ 3 =  1 + 1·2^1 ◗, ◖ 25 =  1 + 3·2^3 ◗]
   27 /2/ [◖ 1 ◗, ◖ 7 = -1 + 1·2^3 ◗, ◖ 27 = -1 + 7·2^2 ◗]
   29 /2/ [◖ 1 ◗, ◖ 7 = -1 + 1·2^3 ◗, ◖ 29 =  1 + 7·2^2 ◗]
   31 /1/ [◖ 1 ◗, ◖ 31 = -1 + 1·2^5 ◗]
   33 /1/ [◖ 1 ◗, ◖ 33 =  1 + 1·2^5 ◗]
   35 /2/ [◖ 1 ◗, ◖ 9 =  1 + 1·2^3 ◗, ◖ 35 = -1 + 9·2^2 ◗]
   37 /2/ [◖ 1 ◗, ◖ 9 =  1 + 1·2^3 ◗, ◖ 37 =  1 + 9·2^2 ◗]
   39 /2/ [◖ 1 ◗, ◖ 5 =  1 + 1·2^2 ◗, ◖ 39 = -1 + 5·2^3 ◗]
   41 /2/ [◖ 1 ◗, ◖ 5 =  1 + 1·2^2 ◗, ◖ 41 =  1 + 5·2^3 ◗]
   43 /3/ [◖ 1 ◗, ◖ 3 =  1 + 1·2^1 ◗, ◖ 11 = -1 + 3·2^2 ◗, ◖ 43 = -1 + 11·2^2 ◗]
   45 /2/ [◖ 1 ◗, ◖ 3 =  1 + 1·2^1 ◗, ◖ 45 = -3 + 3·2^4 ◗]
   47 /2/ [◖ 1 ◗, ◖ 3 =  1 + 1·2^1 ◗, ◖ 47 = -1 + 3·2^4 ◗]
   49 /2/ [◖ 1 ◗, ◖ 3 =  1 + 1·2^1 ◗, ◖ 49 =  1 + 3·2^4 ◗]
   51 /2/ [◖ 1 ◗, ◖ 3 =  1 + 1·2^1 ◗, ◖ 51 =  3 + 3·2^4 ◗]
   53 /3/ [◖ 1 ◗, ◖ 3 =  1 + 1·2^1 ◗, ◖ 13 =  1 + 3·2^2 ◗, ◖ 53 =  1 + 13·2^2 ◗]
   55 /2/ [◖ 1 ◗, ◖ 7 = -1 + 1·2^3 ◗, ◖ 55 = -1 + 7·2^3 ◗]
   57 /2/ [◖ 1 ◗, ◖ 7 = -1 + 1·2^3 ◗, ◖ 57 =  1 + 7·2^3 ◗]
   59 /2/ [◖ 1 ◗, ◖ 15 = -1 + 1·2^4 ◗, ◖ 59 = -1 + 15·2^2 ◗]
   61 /2/ [◖ 1 ◗, ◖ 15 = -1 + 1·2^4 ◗, ◖ 61 =  1 + 15·2^2 ◗]
   63 /1/ [◖ 1 ◗, ◖ 63 = -1 + 1·2^6 ◗]
".
Definition g11_1 : string := "   65 /1/ [◖ 1 ◗, ◖ 65 =  1 + 1·2^6 ◗]
   67 /2/ [◖ 1 ◗, ◖ 17 =  1 + 1·2^4 ◗, ◖ 67 = -1 + 17·2^2 ◗]
   69 /2/ [◖ 1 ◗, ◖ 17 =  1 + 1·2^4 ◗, ◖ 69 =  1 + 17·2^2 ◗]
   71 /2/ [◖ 1 ◗, ◖ 9 =  1 + 1·2^3 ◗, ◖ 71 = -1 + 9·2^3 ◗]
   73 /2/ [◖ 1 ◗, ◖ 9 =  1 + 1·2^3 ◗, ◖ 73 =  1 + 9·2^3 ◗]
   75 /2/ [◖ 1 ◗, ◖ 5 =  1 + 1·2^2 ◗, ◖ 75 = -5 + 5·2^4 ◗]
   77 /3/ [◖ 1 ◗, ◖ 5 =  1 + 1·2^2 ◗, ◖ 19 = -1 + 5·2^2 ◗, ◖ 77 =  1 + 19·2^2 ◗]
   79 /2/ [◖ 1 ◗, ◖ 5 =  1 + 1·2^2 ◗, ◖ 79 = -1 + 5·2^4 ◗]
   81 /2/ [◖ 1 ◗, ◖ 5 =  1 + 1·2^2 ◗, ◖ 81 =  1 + 5·2^4 ◗]
   83 /3/ [◖ 1 ◗, ◖ 5 =  1 + 1·2^2 ◗, ◖ 21 =  1 + 5·2^2 ◗, ◖ 83 = -1 + 21·2^2 ◗]
   85 /2/ [◖ 1 ◗, ◖ 5 =  1 + 1·2^2 ◗, ◖ 85 =  5 + 5·2^4 ◗]
   87 /3/ [◖ 1 ◗, ◖ 3 =  1 + 1·2^1 ◗, ◖ 11 = -1 + 3·2^2 ◗, ◖ 87 = -1 + 11·2^3 ◗]
   89 /3/ [◖ 1 ◗, ◖ 3 =  1 + 1·2^1 ◗, ◖ 11 = -1 + 3·2^2 ◗, ◖ 89 =  1 + 11·2^3 ◗]
   91 /3/ [◖ 1 ◗, ◖ 3 =  1 + 1·2^1 ◗, ◖ 23 = -1 + 3·2^3 ◗, ◖ 91 = -1 + 23·2^2 ◗]
   93 /2/ [◖ 1 ◗, ◖ 3 =  1 + 1·2^1 ◗, ◖ 93 = -3 + 3·2^5 ◗]
   95 /2/ [◖ 1 ◗, ◖ 3 =  1 + 1·2^1 ◗, ◖ 95 = -1 + 3·2^5 ◗]
   97 /2/ [◖ 1 ◗, ◖ 3 =  1 + 1·2^1 ◗, ◖ 97 =  1 + 3·2^5 ◗]
   99 /2/ [◖ 1 ◗, ◖ 3 =  1 + 1·2^1 ◗, ◖ 99 =  3 + 3·2^5 ◗]
  101 /3/ [◖ 1 ◗, ◖ 3 =  1 + 1·2^1 ◗, ◖ 25 =  1 + 3·2^3 ◗, ◖ 101 =  1 + 25·2^2 ◗]
  103 /3/ [◖ 1 ◗, ◖ 3 =  1 + 1·2^1 ◗, ◖ 13 =  1 + 3·2^2 ◗, ◖ 103 = -1 + 13·2^3 ◗]
  105 /2/ [◖ 1 ◗, ◖ 7 = -1 + 1·2^3 ◗, ◖ 105 = -7 + 7·2^4 ◗]
  107 /3/ [◖ 1 ◗, ◖ 7 = -1 + 1·2^3 ◗, ◖ 27 = -1 + 7·2^2 ◗, ◖ 107 = -1 + 27·2^2 ◗]
  109 /3/ [◖ 1 ◗, ◖ 7 = -1 + 1·2^3 ◗, ◖ 27 = -1 + 7·2^2 ◗, ◖ 109 =  1 + 27·2^2 ◗]
  111 /2/ [◖ 1 ◗, ◖ 7 = -1 + 1·2^3 ◗, ◖ 111 = -1 + 7·2^4 ◗]
  113 /2/ [◖ 1 ◗, ◖ 7 = -1 + 1·2^3 ◗, ◖ 113 =  1 + 7·2^4 ◗]
  115 /3/ [◖ 1 ◗, ◖ 7 = -1 + 1·2^3 ◗, ◖ 29 =  1 + 7·2^2 ◗, ◖ 115 = -1 + 29·2^2 ◗]
  117 /3/ [◖ 1 ◗, ◖ 7 = -1 + 1·2^3 ◗, ◖ 29 =  1 + 7·2^2 ◗, ◖ 117 =  1 + 29·2^2 ◗]
  119 /2/ [◖ 1 ◗, ◖ 15 = -1 + 1·2^4 ◗, ◖ 119 = -1 + 15·2^3 ◗]
  121 /2/ [◖ 1 ◗, ◖ 15 = -1 + 1·2^4 ◗, ◖ 121 =  1 + 15·2^3 ◗]
  123 /2/ [◖ 1 ◗, ◖ 31 = -1 + 1·2^5 ◗, ◖ 123 = -1 + 31·2^2 ◗]
  125 /2/ [◖ 1 ◗, ◖ 31 = -1 + 1·2^5 ◗, ◖ 125 =  1 + 31·2^2 ◗]
  127 /1/ [◖ 1 ◗, ◖ 127 = -1 + 1·2^7 ◗]
".
Definition g11_2 : string := "  129 /1/ [◖ 1 ◗, ◖ 129 =  1 + 1·2^7 ◗]
  131 /2/ [◖ 1 ◗, ◖ 33 =  1 + 1·2^5 ◗, ◖ 131 = -1 + 33·2^2 ◗]
  133 /2/ [◖ 1 ◗, ◖ 33 =  1 + 1·2^5 ◗, ◖ 133 =  1 + 33·2^2 ◗]
  135 /2/ [◖ 1 ◗, ◖ 17 =  1 + 1·2^4 ◗, ◖ 135 = -1 + 17·2^3 ◗]
  137 /2/ [◖ 1 ◗, ◖ 17 =  1 + 1·2^4 ◗, ◖ 137 =  1 + 17·2^3 ◗]
  139 /3/ [◖ 1 ◗, ◖ 9 =  1 + 1·2^3 ◗, ◖ 35 = -1 + 9·2^2 ◗, ◖ 139 = -1 + 35·2^2 ◗]
  141 /3/ [◖ 1 ◗, ◖ 9 =  1 + 1·2^3 ◗, ◖ 35 = -1 + 9·2^2 ◗, ◖ 141 =  1 + 35·2^2 ◗]
  143 /2/ [◖ 1 ◗, ◖ 9 =  1 + 1·2^3 ◗, ◖ 143 = -1 + 9·2^4 ◗]
  145 /2/ [◖ 1 ◗, ◖ 9 =  1 + 1·2^3 ◗, ◖ 145 =  1 + 9·2^4 ◗]
  147 /3/ [◖ 1 ◗, ◖ 9 =  1 + 1·2^3 ◗, ◖ 37 =  1 + 9·2^2 ◗, ◖ 147 = -1 + 37·2^2 ◗]
  149 /3/ [◖ 1 ◗, ◖ 9 =  1 + 1·2^3 ◗, ◖ 37 =  1 + 9·2^2 ◗, ◖ 149 =  1 + 37·2^2 ◗]
  151 /3/ [◖ 1 ◗, ◖ 5 =  1 + 1·2^2 ◗, ◖ 19 = -1 + 5·2^2 ◗, ◖ 151 = -1 + 19·2^3 ◗]
  153 /2/ [◖ 1 ◗, ◖ 9 =  1 + 1·2^3 ◗, ◖ 153 =  9 + 9·2^4 ◗]
  155 /2/ [◖ 1 ◗, ◖ 5 =  1 + 1·2^2 ◗, ◖ 155 = -5 + 5·2^5 ◗]
  157 /3/ [◖ 1 ◗, ◖ 5 =  1 + 1·2^2 ◗, ◖ 39 = -1 + 5·2^3 ◗, ◖ 157 =  1 + 39·2^2 ◗]
  159 /2/ [◖ 1 ◗, ◖ 5 =  1 + 1·2^2 ◗, ◖ 159 = -1 + 5·2^5 ◗]
  161 /2/ [◖ 1 ◗, ◖ 5 =  1 + 1·2^2 ◗, ◖ 161 =  1 + 5·2^5 ◗]
  163 /3/ [◖ 1 ◗, ◖ 5 =  1 + 1·2^2 ◗, ◖ 41 =  1 + 5·2^3 ◗, ◖ 163 = -1 + 41·2^2 ◗]
  165 /2/ [◖ 1 ◗, ◖ 5 =  1 + 1·2^2 ◗, ◖ 165 =  5 + 5·2^5 ◗]
  167 /3/ [◖ 1 ◗, ◖ 5 =  1 + 1·2^2 ◗, ◖ 21 =  1 + 5·2^2 ◗, ◖ 167 = -1 + 21·2^3 ◗]
  169 /3/ [◖ 1 ◗, ◖ 5 =  1 + 1·2^2 ◗, ◖ 21 =  1 + 5·2^2 ◗, ◖ 169 =  1 + 21·2^3 ◗]
  171 /3/ [◖ 1 ◗, ◖ 5 =  1 + 1·2^2 ◗, ◖ 85 =  5 + 5·2^4 ◗, ◖ 171 =  1 + 85·2^1 ◗]
  173 /3/ [◖ 1 ◗, ◖ 3 =  1 + 1·2^1 ◗, ◖ 11 = -1 + 3·2^2 ◗, ◖ 173 = -3 + 11·2^4 ◗]
  175 /3/ [◖ 1 ◗, ◖ 3 =  1 + 1·2^1 ◗, ◖ 11 = -1 + 3·2^2 ◗, ◖ 175 = -1 + 11·2^4 ◗]
  177 /3/ [◖ 1 ◗, ◖ 3 =  1 + 1·2^1 ◗, ◖ 11 = -1 + 3·2^2 ◗, ◖ 177 =  1 + 11·2^4 ◗]
  179 /3/ [◖ 1 ◗, ◖ 3 =  1 + 1·2^1 ◗, ◖ 45 = -3 + 3·2^4 ◗, ◖ 179 = -1 + 45·2^2 ◗]
  181 /3/ [◖ 1 ◗, ◖ 3 =  1 + 1·2^1 ◗, ◖ 45 = -3 + 3·2^4 ◗, ◖ 181 =  1 + 45·2^2 ◗]
  183 /3/ [◖ 1 ◗, ◖ 3 =  1 + 1·2^1 ◗, ◖ 23 = -1 + 3·2^3 ◗, ◖ 183 = -1 + 23·2^3 ◗]
  185 /3/ [◖ 1 ◗, ◖ 3 =  1 + 1·2^1 ◗, ◖ 23 = -1 + 3·2^3 ◗, ◖ 185 =  1 + 23·2^3 ◗]
  187 /3/ [◖ 1 ◗, ◖ 3 =  1 + 1·2^1 ◗, ◖ 47 = -1 + 3·2^4 ◗, ◖ 187 = -1 + 47·2^2 ◗]
  189 /2/ [◖ 1 ◗, ◖ 3 =  1 + 1·2^1 ◗, ◖ 189 = -3 + 3·2^6 ◗]
  191 /2/ [◖ 1 ◗, ◖ 3 =  1 + 1·2^1 ◗, ◖ 191 = -1 + 3·2^6 ◗]
".
Definition g11_3 : string := "  193 /2/ [◖ 1 ◗, ◖ 3 =  1 + 1·2^1 ◗, ◖ 193 =  1 + 3·2^6 ◗]
  195 /2/ [◖ 1 ◗, ◖ 3 =  1 + 1·2^1 ◗, ◖ 195 =  3 + 3·2^6 ◗]
  197 /3/ [◖ 1 ◗, ◖ 3 =  1 + 1·2^1 ◗, ◖ 49 =  1 + 3·2^4 ◗, ◖ 197 =  1 + 49·2^2 ◗]
  199 /3/ [◖ 1 ◗, ◖ 3 =  1 + 1·2^1 ◗, ◖ 25 =  1 + 3·2^3 ◗, ◖ 199 = -1 + 25·2^3 ◗]
  201 /3/ [◖ 1 ◗, ◖ 3 =  1 + 1·2^1 ◗, ◖ 25 =  1 + 3·2^3 ◗, ◖ 201 =  1 + 25·2^3 ◗]
  203 /3/ [◖ 1 ◗, ◖ 3 =  1 + 1·2^1 ◗, ◖ 51 =  3 + 3·2^4 ◗, ◖ 203 = -1 + 51·2^2 ◗]
  205 /3/ [◖ 1 ◗, ◖ 3 =  1 + 1·2^1 ◗, ◖ 51 =  3 + 3·2^4 ◗, ◖ 205 =  1 + 51·2^2 ◗]
  207 /3/ [◖ 1 ◗, ◖ 3 =  1 + 1·2^1 ◗, ◖ 13 =  1 + 3·2^2 ◗, ◖ 207 = -1 + 13·2^4 ◗]
  209 /3/ [◖ 1 ◗, ◖ 3 =  1 + 1·2^1 ◗, ◖ 13 =  1 + 3·2^2 ◗, ◖ 209 =  1 + 13·2^4 ◗]
  211 /3/ [◖ 1 ◗, ◖ 7 = -1 + 1·2^3 ◗, ◖ 105 = -7 + 7·2^4 ◗, ◖ 211 =  1 + 105·2^1 ◗]
  213 /3/ [◖ 1 ◗, ◖ 7 = -1 + 1·2^3 ◗, ◖ 55 = -1 + 7·2^3 ◗, ◖ 213 = -7 + 55·2^2 ◗]
  215 /3/ [◖ 1 ◗, ◖ 7 = -1 + 1·2^3 ◗, ◖ 27 = -1 + 7·2^2 ◗, ◖ 215 = -1 + 27·2^3 ◗]
  217 /2/ [◖ 1 ◗, ◖ 7 = -1 + 1·2^3 ◗, ◖ 217 = -7 + 7·2^5 ◗]
  219 /3/ [◖ 1 ◗, ◖ 7 = -1 + 1·2^3 ◗, ◖ 55 = -1 + 7·2^3 ◗, ◖ 219 = -1 + 55·2^2 ◗]
  221 /3/ [◖ 1 ◗, ◖ 7 = -1 + 1·2^3 ◗, ◖ 55 = -1 + 7·2^3 ◗, ◖ 221 =  1 + 55·2^2 ◗]
  223 /2/ [◖ 1 ◗, ◖ 7 = -1 + 1·2^3 ◗, ◖ 223 = -1 + 7·2^5 ◗]
  225 /2/ [◖ 1 ◗, ◖ 7 = -1 + 1·2^3 ◗, ◖ 225 =  1 + 7·2^5 ◗]
  227 /3/ [◖ 1 ◗, ◖ 7 = -1 + 1·2^3 ◗, ◖ 57 =  1 + 7·2^3 ◗, ◖ 227 = -1 + 57·2^2 ◗]
  229 /3/ [◖ 1 ◗, ◖ 7 = -1 + 1·2^3 ◗, ◖ 57 =  1 + 7·2^3 ◗, ◖ 229 =  1 + 57·2^2 ◗]
  231 /2/ [◖ 1 ◗, ◖ 7 = -1 + 1·2^3 ◗, ◖ 231 =  7 + 7·2^5 ◗]
  233 /3/ [◖ 1 ◗, ◖ 7 = -1 + 1·2^3 ◗, ◖ 29 =  1 + 7·2^2 ◗, ◖ 233 =  1 + 29·2^3 ◗]
  235 /3/ [◖ 1 ◗, ◖ 15 = -1 + 1·2^4 ◗, ◖ 59 = -1 + 15·2^2 ◗, ◖ 235 = -1 + 59·2^2 ◗]
  237 /3/ [◖ 1 ◗, ◖ 15 = -1 + 1·2^4 ◗, ◖ 59 = -1 + 15·2^2 ◗, ◖ 237 =  1 + 59·2^2 ◗]
  239 /2/ [◖ 1 ◗, ◖ 15 = -1 + 1·2^4 ◗, ◖ 239 = -1 + 15·2^4 ◗]
  241 /2/ [◖ 1 ◗, ◖ 15 = -1 + 1·2^4 ◗, ◖ 241 =  1 + 15·2^4 ◗]
  243 /3/ [◖ 1 ◗, ◖ 15 = -1 + 1·2^4 ◗, ◖ 61 =  1 + 15·2^2 ◗, ◖ 243 = -1 + 61·2^2 ◗]
  245 /3/ [◖ 1 ◗, ◖ 15 = -1 + 1·2^4 ◗, ◖ 61 =  1 + 15·2^2 ◗, ◖ 245 =  1 + 61·2^2 ◗]
  247 /2/ [◖ 1 ◗, ◖ 31 = -1 + 1·2^5 ◗, ◖ 247 = -1 + 31·2^3 ◗]
  249 /2/ [◖ 1 ◗, ◖ 31 = -1 + 1·2^5 ◗, ◖ 249 =  1 + 31·2^3 ◗]
  251 /2/ [◖ 1 ◗, ◖ 63 = -1 + 1·2^6 ◗, ◖ 251 = -1 + 63·2^2 ◗]
  253 /2/ [◖ 1 ◗, ◖ 63 = -1 + 1·2^6 ◗, ◖ 253 =  1 + 63·2^2 ◗]
  255 /1/ [◖ 1 ◗, ◖ 255 = -1 + 1·2^8 ◗]
".
Definition g11_4 : string := "  257 /1/ [◖ 1 ◗, ◖ 257 =  1 + 1·2^8 ◗]
  259 /2/ [◖ 1 ◗, ◖ 65 =  1 + 1·2^6 ◗, ◖ 259 = -1 + 65·2^2 ◗]
  261 /2/ [◖ 1 ◗, ◖ 65 =  1 + 1·2^6 ◗, ◖ 261 =  1 + 65·2^2 ◗]
  263 /2/ [◖ 1 ◗, ◖ 33 =  1 + 1·2^5 ◗, ◖ 263 = -1 + 33·2^3 ◗]
  265 /2/ [◖ 1 ◗, ◖ 33 =  1 + 1·2^5 ◗, ◖ 265 =  1 + 33·2^3 ◗]
  267 /3/ [◖ 1 ◗, ◖ 17 =  1 + 1·2^4 ◗, ◖ 67 = -1 + 17·2^2 ◗, ◖ 267 = -1 + 67·2^2 ◗]
  269 /3/ [◖ 1 ◗, ◖ 17 =  1 + 1·2^4 ◗, ◖ 67 = -1 + 17·2^2 ◗, ◖ 269 =  1 + 67·2^2 ◗]
  271 /2/ [◖ 1 ◗, ◖ 17 =  1 + 1·2^4 ◗, ◖ 271 = -1 + 17·2^4 ◗]
  273 /2/ [◖ 1 ◗, ◖ 17 =  1 + 1·2^4 ◗, ◖ 273 =  1 + 17·2^4 ◗]
  275 /3/ [◖ 1 ◗, ◖ 17 =  1 + 1·2^4 ◗, ◖ 69 =  1 + 17·2^2 ◗, ◖ 275 = -1 + 69·2^2 ◗]
  277 /3/ [◖ 1 ◗, ◖ 17 =  1 + 1·2^4 ◗, ◖ 69 =  1 + 17·2^2 ◗, ◖ 277 =  1 + 69·2^2 ◗]
  279 /2/ [◖ 1 ◗, ◖ 9 =  1 + 1·2^3 ◗, ◖ 279 = -9 + 9·2^5 ◗]
  281 /3/ [◖ 1 ◗, ◖ 9 =  1 + 1·2^3 ◗, ◖ 35 = -1 + 9·2^2 ◗, ◖ 281 =  1 + 35·2^3 ◗]
  283 /3/ [◖ 1 ◗, ◖ 9 =  1 + 1·2^3 ◗, ◖ 71 = -1 + 9·2^3 ◗, ◖ 283 = -1 + 71·2^2 ◗]
  285 /3/ [◖ 1 ◗, ◖ 9 =  1 + 1·2^3 ◗, ◖ 71 = -1 + 9·2^3 ◗, ◖ 285 =  1 + 71·2^2 ◗]
  287 /2/ [◖ 1 ◗, ◖ 9 =  1 + 1·2^3 ◗, ◖ 287 = -1 + 9·2^5 ◗]
  289 /2/ [◖ 1 ◗, ◖ 9 =  1 + 1·2^3 ◗, ◖ 289 =  1 + 9·2^5 ◗]
  291 /3/ [◖ 1 ◗, ◖ 9 =  1 + 1·2^3 ◗, ◖ 73 =  1 + 9·2^3 ◗, ◖ 291 = -1 + 73·2^2 ◗]
  293 /3/ [◖ 1 ◗, ◖ 9 =  1 + 1·2^3 ◗, ◖ 73 =  1 + 9·2^3 ◗, ◖ 293 =  1 + 73·2^2 ◗]
  295 /3/ [◖ 1 ◗, ◖ 9 =  1 + 1·2^3 ◗, ◖ 37 =  1 + 9·2^2 ◗, ◖ 295 = -1 + 37·2^3 ◗]
  297 /2/ [◖ 1 ◗, ◖ 9 =  1 + 1·2^3 ◗, ◖ 297 =  9 + 9·2^5 ◗]
  299 /3/ [◖ 1 ◗, ◖ 5 =  1 + 1·2^2 ◗, ◖ 75 = -5 + 5·2^4 ◗, ◖ 299 = -1 + 75·2^2 ◗]
  301 /3/ [◖ 1 ◗, ◖ 5 =  1 + 1·2^2 ◗, ◖ 75 = -5 + 5·2^4 ◗, ◖ 301 =  1 + 75·2^2 ◗]
  303 /3/ [◖ 1 ◗, ◖ 5 =  1 + 1·2^2 ◗, ◖ 19 = -1 + 5·2^2 ◗, ◖ 303 = -1 + 19·2^4 ◗]
  305 /3/ [◖ 1 ◗, ◖ 5 =  1 + 1·2^2 ◗, ◖ 19 = -1 + 5·2^2 ◗, ◖ 305 =  1 + 19·2^4 ◗]
  307 /3/ [◖ 1 ◗, ◖ 9 =  1 + 1·2^3 ◗, ◖ 153 =  9 + 9·2^4 ◗, ◖ 307 =  1 + 153·2^1 ◗]
  309 /3/ [◖ 1 ◗, ◖ 5 =  1 + 1·2^2 ◗, ◖ 155 = -5 + 5·2^5 ◗, ◖ 309 = -1 + 155·2^1 ◗]
  311 /3/ [◖ 1 ◗, ◖ 5 =  1 + 1·2^2 ◗, ◖ 39 = -1 + 5·2^3 ◗, ◖ 311 = -1 + 39·2^3 ◗]
  313 /3/ [◖ 1 ◗, ◖ 5 =  1 + 1·2^2 ◗, ◖ 39 = -1 + 5·2^3 ◗, ◖ 313 =  1 + 39·2^3 ◗]
  315 /2/ [◖ 1 ◗, ◖ 5 =  1 + 1·2^2 ◗, ◖ 315 = -5 + 5·2^6 ◗]
  317 /3/ [◖ 1 ◗, ◖ 5 =  1 + 1·2^2 ◗, ◖ 79 = -1 + 5·2^4 ◗, ◖ 317 =  1 + 79·2^2 ◗]
  319 /2/ [◖ 1 ◗, ◖ 5 =  1 + 1·2^2 ◗, ◖ 319 = -1 + 5·2^6 ◗]
".
Definition g11_5 : string := "  321 /2/ [◖ 1 ◗, ◖ 5 =  1 + 1·2^2 ◗, ◖ 321 =  1 + 5·2^6 ◗]
  323 /3/ [◖ 1 ◗, ◖ 5 =  1 + 1·2^2 ◗, ◖ 81 =  1 + 5·2^4 ◗, ◖ 323 = -1 + 81·2^2 ◗]
  325 /2/ [◖ 1 ◗, ◖ 5 =  1 + 1·2^2 ◗, ◖ 325 =  5 + 5·2^6 ◗]
  327 /3/ [◖ 1 ◗, ◖ 5 =  1 + 1·2^2 ◗, ◖ 41 =  1 + 5·2^3 ◗, ◖ 327 = -1 + 41·2^3 ◗]
  329 /3/ [◖ 1 ◗, ◖ 5 =  1 + 1·2^2 ◗, ◖ 41 =  1 + 5·2^3 ◗, ◖ 329 =  1 + 41·2^3 ◗]
  331 /3/ [◖ 1 ◗, ◖ 5 =  1 + 1·2^2 ◗, ◖ 165 =  5 + 5·2^5 ◗, ◖ 331 =  1 + 165·2^1 ◗]
  333 /3/ [◖ 1 ◗, ◖ 5 =  1 + 1·2^2 ◗, ◖ 41 =  1 + 5·2^3 ◗, ◖ 333 =  5 + 41·2^3 ◗]
  335 /3/ [◖ 1 ◗, ◖ 5 =  1 + 1·2^2 ◗, ◖ 21 =  1 + 5·2^2 ◗, ◖ 335 = -1 + 21·2^4 ◗]
  337 /3/ [◖ 1 ◗, ◖ 5 =  1 + 1·2^2 ◗, ◖ 21 =  1 + 5·2^2 ◗, ◖ 337 =  1 + 21·2^4 ◗]
  339 /3/ [◖ 1 ◗, ◖ 5 =  1 + 1·2^2 ◗, ◖ 85 =  5 + 5·2^4 ◗, ◖ 339 = -1 + 85·2^2 ◗]
  341 /3/ [◖ 1 ◗, ◖ 5 =  1 + 1·2^2 ◗, ◖ 85 =  5 + 5·2^4 ◗, ◖ 341 =  1 + 85·2^2 ◗]
  343 /3/ [◖ 1 ◗, ◖ 3 =  1 + 1·2^1 ◗, ◖ 49 =  1 + 3·2^4 ◗, ◖ 343 = -49 + 49·2^3 ◗]
  345 /3/ [◖ 1 ◗, ◖ 5 =  1 + 1·2^2 ◗, ◖ 85 =  5 + 5·2^4 ◗, ◖ 345 =  5 + 85·2^2 ◗]
  347 /3/ [◖ 1 ◗, ◖ 5 =  1 + 1·2^2 ◗, ◖ 165 =  5 + 5·2^5 ◗, ◖ 347 = -165 + 1·2^9 ◗]
  349 /3/ [◖ 1 ◗, ◖ 3 =  1 + 1·2^1 ◗, ◖ 11 = -1 + 3·2^2 ◗, ◖ 349 = -3 + 11·2^5 ◗]
  351 /3/ [◖ 1 ◗, ◖ 3 =  1 + 1·2^1 ◗, ◖ 11 = -1 + 3·2^2 ◗, ◖ 351 = -1 + 11·2^5 ◗]
  353 /3/ [◖ 1 ◗, ◖ 3 =  1 + 1·2^1 ◗, ◖ 11 = -1 + 3·2^2 ◗, ◖ 353 =  1 + 11·2^5 ◗]
  355 /3/ [◖ 1 ◗, ◖ 3 =  1 + 1·2^1 ◗, ◖ 11 = -1 + 3·2^2 ◗, ◖ 355 =  3 + 11·2^5 ◗]
  357 /3/ [◖ 1 ◗, ◖ 3 =  1 + 1·2^1 ◗, ◖ 45 = -3 + 3·2^4 ◗, ◖ 357 = -3 + 45·2^3 ◗]
  359 /3/ [◖ 1 ◗, ◖ 3 =  1 + 1·2^1 ◗, ◖ 45 = -3 + 3·2^4 ◗, ◖ 359 = -1 + 45·2^3 ◗]
  361 /3/ [◖ 1 ◗, ◖ 3 =  1 + 1·2^1 ◗, ◖ 45 = -3 + 3·2^4 ◗, ◖ 361 =  1 + 45·2^3 ◗]
  363 /3/ [◖ 1 ◗, ◖ 3 =  1 + 1·2^1 ◗, ◖ 45 = -3 + 3·2^4 ◗, ◖ 363 =  3 + 45·2^3 ◗]
  365 /3/ [◖ 1 ◗, ◖ 3 =  1 + 1·2^1 ◗, ◖ 23 = -1 + 3·2^3 ◗, ◖ 365 = -3 + 23·2^4 ◗]
  367 /3/ [◖ 1 ◗, ◖ 3 =  1 + 1·2^1 ◗, ◖ 23 = -1 + 3·2^3 ◗, ◖ 367 = -1 + 23·2^4 ◗]
  369 /3/ [◖ 1 ◗, ◖ 3 =  1 + 1·2^1 ◗, ◖ 23 = -1 + 3·2^3 ◗, ◖ 369 =  1 + 23·2^4 ◗]
  371 /3/ [◖ 1 ◗, ◖ 3 =  1 + 1·2^1 ◗, ◖ 93 = -3 + 3·2^5 ◗, ◖ 371 = -1 + 93·2^2 ◗]
  373 /3/ [◖ 1 ◗, ◖ 3 =  1 + 1·2^1 ◗, ◖ 93 = -3 + 3·2^5 ◗, ◖ 373 =  1 + 93·2^2 ◗]
  375 /3/ [◖ 1 ◗, ◖ 3 =  1 + 1·2^1 ◗, ◖ 47 = -1 + 3·2^4 ◗, ◖ 375 = -1 + 47·2^3 ◗]
  377 /3/ [◖ 1 ◗, ◖ 3 =  1 + 1·2^1 ◗, ◖ 47 = -1 + 3·2^4 ◗, ◖ 377 =  1 + 47·2^3 ◗]
  379 /3/ [◖ 1 ◗, ◖ 3 =  1 + 1·2^1 ◗, ◖ 95 = -1 + 3·2^5 ◗, ◖ 379 = -1 + 95·2^2 ◗]
  381 /2/ [◖ 1 ◗, ◖ 3 =  1 + 1·2^1 ◗, ◖ 381 = -3 + 3·2^7 ◗]
  383 /2/ [◖ 1 ◗, ◖ 3 =  1 + 1·2^1 ◗, ◖ 383 = -1 + 3·2^7 ◗]
".
Definition g11_6 : string := "  385 /2/ [◖ 1 ◗, ◖ 3 =  1 + 1·2^1 ◗, ◖ 385 =  1 + 3·2^7 ◗]
  387 /2/ [◖ 1 ◗, ◖ 3 =  1 + 1·2^1 ◗, ◖ 387 =  3 + 3·2^7 ◗]
  389 /3/ [◖ 1 ◗, ◖ 3 =  1 + 1·2^1 ◗, ◖ 97 =  1 + 3·2^5 ◗, ◖ 389 =  1 + 97·2^2 ◗]
  391 /3/ [◖ 1 ◗, ◖ 3 =  1 + 1·2^1 ◗, ◖ 49 =  1 + 3·2^4 ◗, ◖ 391 = -1 + 49·2^3 ◗]
  393 /3/ [◖ 1 ◗, ◖ 3 =  1 + 1·2^1 ◗, ◖ 49 =  1 + 3·2^4 ◗, ◖ 393 =  1 + 49·2^3 ◗]
  395 /3/ [◖ 1 ◗, ◖ 3 =  1 + 1·2^1 ◗, ◖ 99 =  3 + 3·2^5 ◗, ◖ 395 = -1 + 99·2^2 ◗]
  397 /3/ [◖ 1 ◗, ◖ 3 =  1 + 1·2^1 ◗, ◖ 99 =  3 + 3·2^5 ◗, ◖ 397 =  1 + 99·2^2 ◗]
  399 /3/ [◖ 1 ◗, ◖ 3 =  1 + 1·2^1 ◗, ◖ 25 =  1 + 3·2^3 ◗, ◖ 399 = -1 + 25·2^4 ◗]
  401 /3/ [◖ 1 ◗, ◖ 3 =  1 + 1·2^1 ◗, ◖ 25 =  1 + 3·2^3 ◗, ◖ 401 =  1 + 25·2^4 ◗]
  403 /3/ [◖ 1 ◗, ◖ 3 =  1 + 1·2^1 ◗, ◖ 25 =  1 + 3·2^3 ◗, ◖ 403 =  3 + 25·2^4 ◗]
  405 /3/ [◖ 1 ◗, ◖ 3 =  1 + 1·2^1 ◗, ◖ 51 =  3 + 3·2^4 ◗, ◖ 405 = -3 + 51·2^3 ◗]
  407 /3/ [◖ 1 ◗, ◖ 3 =  1 + 1·2^1 ◗, ◖ 51 =  3 + 3·2^4 ◗, ◖ 407 = -1 + 51·2^3 ◗]
  409 /3/ [◖ 1 ◗, ◖ 3 =  1 + 1·2^1 ◗, ◖ 51 =  3 + 3·2^4 ◗, ◖ 409 =  1 + 51·2^3 ◗]
  411 /3/ [◖ 1 ◗, ◖ 3 =  1 + 1·2^1 ◗, ◖ 51 =  3 + 3·2^4 ◗, ◖ 411 =  3 + 51·2^3 ◗]
  413 /3/ [◖ 1 ◗, ◖ 3 =  1 + 1·2^1 ◗, ◖ 13 =  1 + 3·2^2 ◗, ◖ 413 = -3 + 13·2^5 ◗]
  415 /3/ [◖ 1 ◗, ◖ 3 =  1 + 1·2^1 ◗, ◖ 13 =  1 + 3·2^2 ◗, ◖ 415 = -1 + 13·2^5 ◗]
  417 /3/ [◖ 1 ◗, ◖ 3 =  1 + 1·2^1 ◗, ◖ 13 =  1 + 3·2^2 ◗, ◖ 417 =  1 + 13·2^5 ◗]
  419 /3/ [◖ 1 ◗, ◖ 7 = -1 + 1·2^3 ◗, ◖ 105 = -7 + 7·2^4 ◗, ◖ 419 = -1 + 105·2^2 ◗]
  421 /3/ [◖ 1 ◗, ◖ 7 = -1 + 1·2^3 ◗, ◖ 105 = -7 + 7·2^4 ◗, ◖ 421 =  1 + 105·2^2 ◗]
  423 /3/ [◖ 1 ◗, ◖ 3 =  1 + 1·2^1 ◗, ◖ 47 = -1 + 3·2^4 ◗, ◖ 423 =  47 + 47·2^3 ◗]
  425 /3/ [◖ 1 ◗, ◖ 7 = -1 + 1·2^3 ◗, ◖ 27 = -1 + 7·2^2 ◗, ◖ 425 = -7 + 27·2^4 ◗]
  427 /3/ [◖ 1 ◗, ◖ 7 = -1 + 1·2^3 ◗, ◖ 105 = -7 + 7·2^4 ◗, ◖ 427 =  7 + 105·2^2 ◗]
  429 /3/ [◖ 1 ◗, ◖ 3 =  1 + 1·2^1 ◗, ◖ 13 =  1 + 3·2^2 ◗, ◖ 429 =  13 + 13·2^5 ◗]
  431 /3/ [◖ 1 ◗, ◖ 7 = -1 + 1·2^3 ◗, ◖ 27 = -1 + 7·2^2 ◗, ◖ 431 = -1 + 27·2^4 ◗]
  433 /3/ [◖ 1 ◗, ◖ 7 = -1 + 1·2^3 ◗, ◖ 27 = -1 + 7·2^2 ◗, ◖ 433 =  1 + 27·2^4 ◗]
  435 /3/ [◖ 1 ◗, ◖ 7 = -1 + 1·2^3 ◗, ◖ 217 = -7 + 7·2^5 ◗, ◖ 435 =  1 + 217·2^1 ◗]
  437 /3/ [◖ 1 ◗, ◖ 7 = -1 + 1·2^3 ◗, ◖ 111 = -1 + 7·2^4 ◗, ◖ 437 = -7 + 111·2^2 ◗]
  439 /3/ [◖ 1 ◗, ◖ 7 = -1 + 1·2^3 ◗, ◖ 55 = -1 + 7·2^3 ◗, ◖ 439 = -1 + 55·2^3 ◗]
  441 /2/ [◖ 1 ◗, ◖ 7 = -1 + 1·2^3 ◗, ◖ 441 = -7 + 7·2^6 ◗]
  443 /3/ [◖ 1 ◗, ◖ 7 = -1 + 1·2^3 ◗, ◖ 111 = -1 + 7·2^4 ◗, ◖ 443 = -1 + 111·2^2 ◗]
  445 /3/ [◖ 1 ◗, ◖ 7 = -1 + 1·2^3 ◗, ◖ 111 = -1 + 7·2^4 ◗, ◖ 445 =  1 + 111·2^2 ◗]
  447 /2/ [◖ 1 ◗, ◖ 7 = -1 + 1·2^3 ◗, ◖ 447 = -1 + 7·2^6 ◗]
".
Definition g11_7 : string := "  449 /2/ [◖ 1 ◗, ◖ 7 = -1 + 1·2^3 ◗, ◖ 449 =  1 + 7·2^6 ◗]
  451 /3/ [◖ 1 ◗, ◖ 7 = -1 + 1·2^3 ◗, ◖ 113 =  1 + 7·2^4 ◗, ◖ 451 = -1 + 113·2^2 ◗]
  453 /3/ [◖ 1 ◗, ◖ 7 = -1 + 1·2^3 ◗, ◖ 113 =  1 + 7·2^4 ◗, ◖ 453 =  1 + 113·2^2 ◗]
  455 /2/ [◖ 1 ◗, ◖ 7 = -1 + 1·2^3 ◗, ◖ 455 =  7 + 7·2^6 ◗]
  457 /3/ [◖ 1 ◗, ◖ 7 = -1 + 1·2^3 ◗, ◖ 57 =  1 + 7·2^3 ◗, ◖ 457 =  1 + 57·2^3 ◗]
  459 /3/ [◖ 1 ◗, ◖ 7 = -1 + 1·2^3 ◗, ◖ 113 =  1 + 7·2^4 ◗, ◖ 459 =  7 + 113·2^2 ◗]
  461 /3/ [◖ 1 ◗, ◖ 7 = -1 + 1·2^3 ◗, ◖ 231 =  7 + 7·2^5 ◗, ◖ 461 = -1 + 231·2^1 ◗]
  463 /3/ [◖ 1 ◗, ◖ 7 = -1 + 1·2^3 ◗, ◖ 29 =  1 + 7·2^2 ◗, ◖ 463 = -1 + 29·2^4 ◗]
  465 /2/ [◖ 1 ◗, ◖ 15 = -1 + 1·2^4 ◗, ◖ 465 = -15 + 15·2^5 ◗]
  467 /3/ [◖ 1 ◗, ◖ 15 = -1 + 1·2^4 ◗, ◖ 241 =  1 + 15·2^4 ◗, ◖ 467 = -15 + 241·2^1 ◗]
  469 /3/ [◖ 1 ◗, ◖ 7 = -1 + 1·2^3 ◗, ◖ 231 =  7 + 7·2^5 ◗, ◖ 469 =  7 + 231·2^1 ◗]
  471 /3/ [◖ 1 ◗, ◖ 15 = -1 + 1·2^4 ◗, ◖ 59 = -1 + 15·2^2 ◗, ◖ 471 = -1 + 59·2^3 ◗]
  473 /3/ [◖ 1 ◗, ◖ 15 = -1 + 1·2^4 ◗, ◖ 59 = -1 + 15·2^2 ◗, ◖ 473 =  1 + 59·2^3 ◗]
  475 /3/ [◖ 1 ◗, ◖ 15 = -1 + 1·2^4 ◗, ◖ 119 = -1 + 15·2^3 ◗, ◖ 475 = -1 + 119·2^2 ◗]
  477 /3/ [◖ 1 ◗, ◖ 15 = -1 + 1·2^4 ◗, ◖ 119 = -1 + 15·2^3 ◗, ◖ 477 =  1 + 119·2^2 ◗]
  479 /2/ [◖ 1 ◗, ◖ 15 = -1 + 1·2^4 ◗, ◖ 479 = -1 + 15·2^5 ◗]
  481 /2/ [◖ 1 ◗, ◖ 15 = -1 + 1·2^4 ◗, ◖ 481 =  1 + 15·2^5 ◗]
  483 /3/ [◖ 1 ◗, ◖ 15 = -1 + 1·2^4 ◗, ◖ 121 =  1 + 15·2^3 ◗, ◖ 483 = -1 + 121·2^2 ◗]
  485 /3/ [◖ 1 ◗, ◖ 15 = -1 + 1·2^4 ◗, ◖ 121 =  1 + 15·2^3 ◗, ◖ 485 =  1 + 121·2^2 ◗]
  487 /3/ [◖ 1 ◗, ◖ 15 = -1 + 1·2^4 ◗, ◖ 61 =  1 + 15·2^2 ◗, ◖ 487 = -1 + 61·2^3 ◗]
  489 /3/ [◖ 1 ◗, ◖ 15 = -1 + 1·2^4 ◗, ◖ 61 =  1 + 15·2^2 ◗, ◖ 489 =  1 + 61·2^3 ◗]
  491 /3/ [◖ 1 ◗, ◖ 31 = -1 + 1·2^5 ◗, ◖ 123 = -1 + 31·2^2 ◗, ◖ 491 = -1 + 123·2^2 ◗]
  493 /3/ [◖ 1 ◗, ◖ 31 = -1 + 1·2^5 ◗, ◖ 123 = -1 + 31·2^2 ◗, ◖ 493 =  1 + 123·2^2 ◗]
  495 /2/ [◖ 1 ◗, ◖ 31 = -1 + 1·2^5 ◗, ◖ 495 = -1 + 31·2^4 ◗]
  497 /2/ [◖ 1 ◗, ◖ 31 = -1 + 1·2^5 ◗, ◖ 497 =  1 + 31·2^4 ◗]
  499 /3/ [◖ 1 ◗, ◖ 31 = -1 + 1·2^5 ◗, ◖ 125 =  1 + 31·2^2 ◗, ◖ 499 = -1 + 125·2^2 ◗]
  501 /3/ [◖ 1 ◗, ◖ 31 = -1 + 1·2^5 ◗, ◖ 125 =  1 + 31·2^2 ◗, ◖ 501 =  1 + 125·2^2 ◗]
  503 /2/ [◖ 1 ◗, ◖ 63 = -1 + 1·2^6 ◗, ◖ 503 = -1 + 63·2^3 ◗]
  505 /2/ [◖ 1 ◗, ◖ 63 = -1 + 1·2^6 ◗, ◖ 505 =  1 + 63·2^3 ◗]
  507 /2/ [◖ 1 ◗, ◖ 127 = -1 + 1·2^7 ◗, ◖ 507 = -1 + 127·2^2 ◗]
  509 /2/ [◖ 1 ◗, ◖ 127 = -1 + 1·2^7 ◗, ◖ 509 =  1 + 127·2^2 ◗]
  511 /1/ [◖ 1 ◗, ◖ 511 = -1 + 1·2^9 ◗]
".
Definition g11_8 : string := "  513 /1/ [◖ 1 ◗, ◖ 513 =  1 + 1·2^9 ◗]
  515 /2/ [◖ 1 ◗, ◖ 129 =  1 + 1·2^7 ◗, ◖ 515 = -1 + 129·2^2 ◗]
  517 /2/ [◖ 1 ◗, ◖ 129 =  1 + 1·2^7 ◗, ◖ 517 =  1 + 129·2^2 ◗]
  519 /2/ [◖ 1 ◗, ◖ 65 =  1 + 1·2^6 ◗, ◖ 519 = -1 + 65·2^3 ◗]
  521 /2/ [◖ 1 ◗, ◖ 65 =  1 + 1·2^6 ◗, ◖ 521 =  1 + 65·2^3 ◗]
  523 /3/ [◖ 1 ◗, ◖ 33 =  1 + 1·2^5 ◗, ◖ 131 = -1 + 33·2^2 ◗, ◖ 523 = -1 + 131·2^2 ◗]
  525 /3/ [◖ 1 ◗, ◖ 33 =  1 + 1·2^5 ◗, ◖ 131 = -1 + 33·2^2 ◗, ◖ 525 =  1 + 131·2^2 ◗]
  527 /2/ [◖ 1 ◗, ◖ 33 =  1 + 1·2^5 ◗, ◖ 527 = -1 + 33·2^4 ◗]
  529 /2/ [◖ 1 ◗, ◖ 33 =  1 + 1·2^5 ◗, ◖ 529 =  1 + 33·2^4 ◗]
  531 /3/ [◖ 1 ◗, ◖ 33 =  1 + 1·2^5 ◗, ◖ 133 =  1 + 33·2^2 ◗, ◖ 531 = -1 + 133·2^2 ◗]
  533 /3/ [◖ 1 ◗, ◖ 33 =  1 + 1·2^5 ◗, ◖ 133 =  1 + 33·2^2 ◗, ◖ 533 =  1 + 133·2^2 ◗]
  535 /3/ [◖ 1 ◗, ◖ 17 =  1 + 1·2^4 ◗, ◖ 67 = -1 + 17·2^2 ◗, ◖ 535 = -1 + 67·2^3 ◗]
  537 /3/ [◖ 1 ◗, ◖ 17 =  1 + 1·2^4 ◗, ◖ 67 = -1 + 17·2^2 ◗, ◖ 537 =  1 + 67·2^3 ◗]
  539 /3/ [◖ 1 ◗, ◖ 17 =  1 + 1·2^4 ◗, ◖ 135 = -1 + 17·2^3 ◗, ◖ 539 = -1 + 135·2^2 ◗]
  541 /3/ [◖ 1 ◗, ◖ 17 =  1 + 1·2^4 ◗, ◖ 135 = -1 + 17·2^3 ◗, ◖ 541 =  1 + 135·2^2 ◗]
  543 /2/ [◖ 1 ◗, ◖ 17 =  1 + 1·2^4 ◗, ◖ 543 = -1 + 17·2^5 ◗]
  545 /2/ [◖ 1 ◗, ◖ 17 =  1 + 1·2^4 ◗, ◖ 545 =  1 + 17·2^5 ◗]
  547 /3/ [◖ 1 ◗, ◖ 17 =  1 + 1·2^4 ◗, ◖ 137 =  1 + 17·2^3 ◗, ◖ 547 = -1 + 137·2^2 ◗]
  549 /3/ [◖ 1 ◗, ◖ 17 =  1 + 1·2^4 ◗, ◖ 137 =  1 + 17·2^3 ◗, ◖ 549 =  1 + 137·2^2 ◗]
  551 /3/ [◖ 1 ◗, ◖ 17 =  1 + 1·2^4 ◗, ◖ 69 =  1 + 17·2^2 ◗, ◖ 551 = -1 + 69·2^3 ◗]
  553 /3/ [◖ 1 ◗, ◖ 17 =  1 + 1·2^4 ◗, ◖ 69 =  1 + 17·2^2 ◗, ◖ 553 =  1 + 69·2^3 ◗]
  555 /3/ [◖ 1 ◗, ◖ 9 =  1 + 1·2^3 ◗, ◖ 37 =  1 + 9·2^2 ◗, ◖ 555 = -37 + 37·2^4 ◗]
  557 /3/ [◖ 1 ◗, ◖ 9 =  1 + 1·2^3 ◗, ◖ 279 = -9 + 9·2^5 ◗, ◖ 557 = -1 + 279·2^1 ◗]
  559 /3/ [◖ 1 ◗, ◖ 9 =  1 + 1·2^3 ◗, ◖ 35 = -1 + 9·2^2 ◗, ◖ 559 = -1 + 35·2^4 ◗]
  561 /2/ [◖ 1 ◗, ◖ 17 =  1 + 1·2^4 ◗, ◖ 561 =  17 + 17·2^5 ◗]
  563 /3/ [◖ 1 ◗, ◖ 9 =  1 + 1·2^3 ◗, ◖ 143 = -1 + 9·2^4 ◗, ◖ 563 = -9 + 143·2^2 ◗]
  565 /3/ [◖ 1 ◗, ◖ 9 =  1 + 1·2^3 ◗, ◖ 287 = -1 + 9·2^5 ◗, ◖ 565 = -9 + 287·2^1 ◗]
  567 /2/ [◖ 1 ◗, ◖ 9 =  1 + 1·2^3 ◗, ◖ 567 = -9 + 9·2^6 ◗]
  569 /3/ [◖ 1 ◗, ◖ 9 =  1 + 1·2^3 ◗, ◖ 71 = -1 + 9·2^3 ◗, ◖ 569 =  1 + 71·2^3 ◗]
  571 /3/ [◖ 1 ◗, ◖ 9 =  1 + 1·2^3 ◗, ◖ 143 = -1 + 9·2^4 ◗, ◖ 571 = -1 + 143·2^2 ◗]
  573 /3/ [◖ 1 ◗, ◖ 9 =  1 + 1·2^3 ◗, ◖ 143 = -1 + 9·2^4 ◗, ◖ 573 =  1 + 143·2^2 ◗]
  575 /2/ [◖ 1 ◗, ◖ 9 =  1 + 1·2^3 ◗, ◖ 575 = -1 + 9·2^6 ◗]
".
Definition g11_9 : string := "  577 /2/ [◖ 1 ◗, ◖ 9 =  1 + 1·2^3 ◗, ◖ 577 =  1 + 9·2^6 ◗]
  579 /3/ [◖ 1 ◗, ◖ 9 =  1 + 1·2^3 ◗, ◖ 145 =  1 + 9·2^4 ◗, ◖ 579 = -1 + 145·2^2 ◗]
  581 /3/ [◖ 1 ◗, ◖ 9 =  1 + 1·2^3 ◗, ◖ 145 =  1 + 9·2^4 ◗, ◖ 581 =  1 + 145·2^2 ◗]
  583 /3/ [◖ 1 ◗, ◖ 9 =  1 + 1·2^3 ◗, ◖ 73 =  1 + 9·2^3 ◗, ◖ 583 = -1 + 73·2^3 ◗]
  585 /2/ [◖ 1 ◗, ◖ 9 =  1 + 1·2^3 ◗, ◖ 585 =  9 + 9·2^6 ◗]
  587 /3/ [◖ 1 ◗, ◖ 9 =  1 + 1·2^3 ◗, ◖ 289 =  1 + 9·2^5 ◗, ◖ 587 =  9 + 289·2^1 ◗]
  589 /3/ [◖ 1 ◗, ◖ 9 =  1 + 1·2^3 ◗, ◖ 145 =  1 + 9·2^4 ◗, ◖ 589 =  9 + 145·2^2 ◗]
  591 /3/ [◖ 1 ◗, ◖ 9 =  1 + 1·2^3 ◗, ◖ 37 =  1 + 9·2^2 ◗, ◖ 591 = -1 + 37·2^4 ◗]
  593 /3/ [◖ 1 ◗, ◖ 9 =  1 + 1·2^3 ◗, ◖ 37 =  1 + 9·2^2 ◗, ◖ 593 =  1 + 37·2^4 ◗]
  595 /3/ [◖ 1 ◗, ◖ 9 =  1 + 1·2^3 ◗, ◖ 297 =  9 + 9·2^5 ◗, ◖ 595 =  1 + 297·2^1 ◗]
  597 /3/ [◖ 1 ◗, ◖ 5 =  1 + 1·2^2 ◗, ◖ 85 =  5 + 5·2^4 ◗, ◖ 597 =  85 + 1·2^9 ◗]
  599 /3/ [◖ 1 ◗, ◖ 5 =  1 + 1·2^2 ◗, ◖ 75 = -5 + 5·2^4 ◗, ◖ 599 = -1 + 75·2^3 ◗]
  601 /3/ [◖ 1 ◗, ◖ 5 =  1 + 1·2^2 ◗, ◖ 75 = -5 + 5·2^4 ◗, ◖ 601 =  1 + 75·2^3 ◗]
  603 /3/ [◖ 1 ◗, ◖ 5 =  1 + 1·2^2 ◗, ◖ 19 = -1 + 5·2^2 ◗, ◖ 603 = -5 + 19·2^5 ◗]
  605 /3/ [◖ 1 ◗, ◖ 5 =  1 + 1·2^2 ◗, ◖ 75 = -5 + 5·2^4 ◗, ◖ 605 =  5 + 75·2^3 ◗]
  607 /3/ [◖ 1 ◗, ◖ 5 =  1 + 1·2^2 ◗, ◖ 19 = -1 + 5·2^2 ◗, ◖ 607 = -1 + 19·2^5 ◗]
  609 /3/ [◖ 1 ◗, ◖ 5 =  1 + 1·2^2 ◗, ◖ 19 = -1 + 5·2^2 ◗, ◖ 609 =  1 + 19·2^5 ◗]
  611 /3/ [◖ 1 ◗, ◖ 9 =  1 + 1·2^3 ◗, ◖ 153 =  9 + 9·2^4 ◗, ◖ 611 = -1 + 153·2^2 ◗]
  613 /3/ [◖ 1 ◗, ◖ 9 =  1 + 1·2^3 ◗, ◖ 153 =  9 + 9·2^4 ◗, ◖ 613 =  1 + 153·2^2 ◗]
  615 /3/ [◖ 1 ◗, ◖ 5 =  1 + 1·2^2 ◗, ◖ 155 = -5 + 5·2^5 ◗, ◖ 615 = -5 + 155·2^2 ◗]
  617 /3/ [◖ 1 ◗, ◖ 9 =  1 + 1·2^3 ◗, ◖ 585 =  9 + 9·2^6 ◗, ◖ 617 =  585 + 1·2^5 ◗]
  619 /3/ [◖ 1 ◗, ◖ 5 =  1 + 1·2^2 ◗, ◖ 155 = -5 + 5·2^5 ◗, ◖ 619 = -1 + 155·2^2 ◗]
  621 /3/ [◖ 1 ◗, ◖ 5 =  1 + 1·2^2 ◗, ◖ 155 = -5 + 5·2^5 ◗, ◖ 621 =  1 + 155·2^2 ◗]
  623 /3/ [◖ 1 ◗, ◖ 5 =  1 + 1·2^2 ◗, ◖ 39 = -1 + 5·2^3 ◗, ◖ 623 = -1 + 39·2^4 ◗]
  625 /3/ [◖ 1 ◗, ◖ 5 =  1 + 1·2^2 ◗, ◖ 39 = -1 + 5·2^3 ◗, ◖ 625 =  1 + 39·2^4 ◗]
  627 /3/ [◖ 1 ◗, ◖ 5 =  1 + 1·2^2 ◗, ◖ 79 = -1 + 5·2^4 ◗, ◖ 627 = -5 + 79·2^3 ◗]
  629 /3/ [◖ 1 ◗, ◖ 5 =  1 + 1·2^2 ◗, ◖ 315 = -5 + 5·2^6 ◗, ◖ 629 = -1 + 315·2^1 ◗]
  631 /3/ [◖ 1 ◗, ◖ 5 =  1 + 1·2^2 ◗, ◖ 79 = -1 + 5·2^4 ◗, ◖ 631 = -1 + 79·2^3 ◗]
  633 /3/ [◖ 1 ◗, ◖ 5 =  1 + 1·2^2 ◗, ◖ 79 = -1 + 5·2^4 ◗, ◖ 633 =  1 + 79·2^3 ◗]
  635 /2/ [◖ 1 ◗, ◖ 5 =  1 + 1·2^2 ◗, ◖ 635 = -5 + 5·2^7 ◗]
  637 /3/ [◖ 1 ◗, ◖ 5 =  1 + 1·2^2 ◗, ◖ 159 = -1 + 5·2^5 ◗, ◖ 637 =  1 + 159·2^2 ◗]
  639 /2/ [◖ 1 ◗, ◖ 5 =  1 + 1·2^2 ◗, ◖ 639 = -1 + 5·2^7 ◗]
".
Definition g11_10 : string := "  641 /2/ [◖ 1 ◗, ◖ 5 =  1 + 1·2^2 ◗, ◖ 641 =  1 + 5·2^7 ◗]
  643 /3/ [◖ 1 ◗, ◖ 5 =  1 + 1·2^2 ◗, ◖ 161 =  1 + 5·2^5 ◗, ◖ 643 = -1 + 161·2^2 ◗]
  645 /2/ [◖ 1 ◗, ◖ 5 =  1 + 1·2^2 ◗, ◖ 645 =  5 + 5·2^7 ◗]
  647 /3/ [◖ 1 ◗, ◖ 5 =  1 + 1·2^2 ◗, ◖ 81 =  1 + 5·2^4 ◗, ◖ 647 = -1 + 81·2^3 ◗]
  649 /3/ [◖ 1 ◗, ◖ 5 =  1 + 1·2^2 ◗, ◖ 81 =  1 + 5·2^4 ◗, ◖ 649 =  1 + 81·2^3 ◗]
  651 /3/ [◖ 1 ◗, ◖ 5 =  1 + 1·2^2 ◗, ◖ 325 =  5 + 5·2^6 ◗, ◖ 651 =  1 + 325·2^1 ◗]
  653 /3/ [◖ 1 ◗, ◖ 5 =  1 + 1·2^2 ◗, ◖ 81 =  1 + 5·2^4 ◗, ◖ 653 =  5 + 81·2^3 ◗]
  655 /3/ [◖ 1 ◗, ◖ 5 =  1 + 1·2^2 ◗, ◖ 41 =  1 + 5·2^3 ◗, ◖ 655 = -1 + 41·2^4 ◗]
  657 /3/ [◖ 1 ◗, ◖ 5 =  1 + 1·2^2 ◗, ◖ 41 =  1 + 5·2^3 ◗, ◖ 657 =  1 + 41·2^4 ◗]
  659 /3/ [◖ 1 ◗, ◖ 5 =  1 + 1·2^2 ◗, ◖ 165 =  5 + 5·2^5 ◗, ◖ 659 = -1 + 165·2^2 ◗]
  661 /3/ [◖ 1 ◗, ◖ 5 =  1 + 1·2^2 ◗, ◖ 165 =  5 + 5·2^5 ◗, ◖ 661 =  1 + 165·2^2 ◗]
  663 /3/ [◖ 1 ◗, ◖ 5 =  1 + 1·2^2 ◗, ◖ 39 = -1 + 5·2^3 ◗, ◖ 663 =  39 + 39·2^4 ◗]
  665 /3/ [◖ 1 ◗, ◖ 5 =  1 + 1·2^2 ◗, ◖ 165 =  5 + 5·2^5 ◗, ◖ 665 =  5 + 165·2^2 ◗]
  667 /3/ [◖ 1 ◗, ◖ 5 =  1 + 1·2^2 ◗, ◖ 21 =  1 + 5·2^2 ◗, ◖ 667 = -5 + 21·2^5 ◗]
  669 /3/ [◖ 1 ◗, ◖ 7 = -1 + 1·2^3 ◗, ◖ 223 = -1 + 7·2^5 ◗, ◖ 669 =  223 + 223·2^1 ◗]
  671 /3/ [◖ 1 ◗, ◖ 5 =  1 + 1·2^2 ◗, ◖ 21 =  1 + 5·2^2 ◗, ◖ 671 = -1 + 21·2^5 ◗]
  673 /3/ [◖ 1 ◗, ◖ 5 =  1 + 1·2^2 ◗, ◖ 21 =  1 + 5·2^2 ◗, ◖ 673 =  1 + 21·2^5 ◗]
  675 /3/ [◖ 1 ◗, ◖ 5 =  1 + 1·2^2 ◗, ◖ 85 =  5 + 5·2^4 ◗, ◖ 675 = -5 + 85·2^3 ◗]
  677 /3/ [◖ 1 ◗, ◖ 5 =  1 + 1·2^2 ◗, ◖ 21 =  1 + 5·2^2 ◗, ◖ 677 =  5 + 21·2^5 ◗]
  679 /3/ [◖ 1 ◗, ◖ 5 =  1 + 1·2^2 ◗, ◖ 85 =  5 + 5·2^4 ◗, ◖ 679 = -1 + 85·2^3 ◗]
  681 /3/ [◖ 1 ◗, ◖ 5 =  1 + 1·2^2 ◗, ◖ 85 =  5 + 5·2^4 ◗, ◖ 681 =  1 + 85·2^3 ◗]
  683 /4/ [◖ 1 ◗, ◖ 5 =  1 + 1·2^2 ◗, ◖ 85 =  5 + 5·2^4 ◗, ◖ 171 =  1 + 85·2^1 ◗, ◖ 683 = -1 + 171·2^2 ◗]
  685 /3/ [◖ 1 ◗, ◖ 5 =  1 + 1·2^2 ◗, ◖ 85 =  5 + 5·2^4 ◗, ◖ 685 =  5 + 85·2^3 ◗]
  687 /4/ [◖ 1 ◗, ◖ 3 =  1 + 1·2^1 ◗, ◖ 11 = -1 + 3·2^2 ◗, ◖ 43 = -1 + 11·2^2 ◗, ◖ 687 = -1 + 43·2^4 ◗]
  689 /3/ [◖ 1 ◗, ◖ 17 =  1 + 1·2^4 ◗, ◖ 561 =  17 + 17·2^5 ◗, ◖ 689 =  561 + 1·2^7 ◗]
  691 /4/ [◖ 1 ◗, ◖ 3 =  1 + 1·2^1 ◗, ◖ 11 = -1 + 3·2^2 ◗, ◖ 173 = -3 + 11·2^4 ◗, ◖ 691 = -1 + 173·2^2 ◗]
  693 /3/ [◖ 1 ◗, ◖ 3 =  1 + 1·2^1 ◗, ◖ 11 = -1 + 3·2^2 ◗, ◖ 693 = -11 + 11·2^6 ◗]
  695 /3/ [◖ 1 ◗, ◖ 9 =  1 + 1·2^3 ◗, ◖ 567 = -9 + 9·2^6 ◗, ◖ 695 =  567 + 1·2^7 ◗]
  697 /3/ [◖ 1 ◗, ◖ 5 =  1 + 1·2^2 ◗, ◖ 41 =  1 + 5·2^3 ◗, ◖ 697 =  41 + 41·2^4 ◗]
  699 /3/ [◖ 1 ◗, ◖ 5 =  1 + 1·2^2 ◗, ◖ 325 =  5 + 5·2^6 ◗, ◖ 699 = -325 + 1·2^10 ◗]
  701 /3/ [◖ 1 ◗, ◖ 3 =  1 + 1·2^1 ◗, ◖ 11 = -1 + 3·2^2 ◗, ◖ 701 = -3 + 11·2^6 ◗]
  703 /3/ [◖ 1 ◗, ◖ 3 =  1 + 1·2^1 ◗, ◖ 11 = -1 + 3·2^2 ◗, ◖ 703 = -1 + 11·2^6 ◗]
".
Definition g11_11 : string := "  705 /3/ [◖ 1 ◗, ◖ 3 =  1 + 1·2^1 ◗, ◖ 11 = -1 + 3·2^2 ◗, ◖ 705 =  1 + 11·2^6 ◗]
  707 /3/ [◖ 1 ◗, ◖ 3 =  1 + 1·2^1 ◗, ◖ 11 = -1 + 3·2^2 ◗, ◖ 707 =  3 + 11·2^6 ◗]
  709 /3/ [◖ 1 ◗, ◖ 5 =  1 + 1·2^2 ◗, ◖ 315 = -5 + 5·2^6 ◗, ◖ 709 = -315 + 1·2^10 ◗]
  711 /3/ [◖ 1 ◗, ◖ 5 =  1 + 1·2^2 ◗, ◖ 79 = -1 + 5·2^4 ◗, ◖ 711 =  79 + 79·2^3 ◗]
  713 /3/ [◖ 1 ◗, ◖ 3 =  1 + 1·2^1 ◗, ◖ 23 = -1 + 3·2^3 ◗, ◖ 713 = -23 + 23·2^5 ◗]
  715 /3/ [◖ 1 ◗, ◖ 3 =  1 + 1·2^1 ◗, ◖ 11 = -1 + 3·2^2 ◗, ◖ 715 =  11 + 11·2^6 ◗]
  717 /3/ [◖ 1 ◗, ◖ 3 =  1 + 1·2^1 ◗, ◖ 45 = -3 + 3·2^4 ◗, ◖ 717 = -3 + 45·2^4 ◗]
  719 /3/ [◖ 1 ◗, ◖ 3 =  1 + 1·2^1 ◗, ◖ 45 = -3 + 3·2^4 ◗, ◖ 719 = -1 + 45·2^4 ◗]
  721 /3/ [◖ 1 ◗, ◖ 3 =  1 + 1·2^1 ◗, ◖ 45 = -3 + 3·2^4 ◗, ◖ 721 =  1 + 45·2^4 ◗]
  723 /3/ [◖ 1 ◗, ◖ 3 =  1 + 1·2^1 ◗, ◖ 45 = -3 + 3·2^4 ◗, ◖ 723 =  3 + 45·2^4 ◗]
  725 /3/ [◖ 1 ◗, ◖ 9 =  1 + 1·2^3 ◗, ◖ 145 =  1 + 9·2^4 ◗, ◖ 725 =  145 + 145·2^2 ◗]
  727 /3/ [◖ 1 ◗, ◖ 9 =  1 + 1·2^3 ◗, ◖ 297 =  9 + 9·2^5 ◗, ◖ 727 = -297 + 1·2^10 ◗]
  729 /3/ [◖ 1 ◗, ◖ 5 =  1 + 1·2^2 ◗, ◖ 81 =  1 + 5·2^4 ◗, ◖ 729 =  81 + 81·2^3 ◗]
  731 /4/ [◖ 1 ◗, ◖ 3 =  1 + 1·2^1 ◗, ◖ 23 = -1 + 3·2^3 ◗, ◖ 183 = -1 + 23·2^3 ◗, ◖ 731 = -1 + 183·2^2 ◗]
  733 /3/ [◖ 1 ◗, ◖ 3 =  1 + 1·2^1 ◗, ◖ 23 = -1 + 3·2^3 ◗, ◖ 733 = -3 + 23·2^5 ◗]
  735 /3/ [◖ 1 ◗, ◖ 3 =  1 + 1·2^1 ◗, ◖ 23 = -1 + 3·2^3 ◗, ◖ 735 = -1 + 23·2^5 ◗]
  737 /3/ [◖ 1 ◗, ◖ 3 =  1 + 1·2^1 ◗, ◖ 23 = -1 + 3·2^3 ◗, ◖ 737 =  1 + 23·2^5 ◗]
  739 /3/ [◖ 1 ◗, ◖ 3 =  1 + 1·2^1 ◗, ◖ 23 = -1 + 3·2^3 ◗, ◖ 739 =  3 + 23·2^5 ◗]
  741 /3/ [◖ 1 ◗, ◖ 3 =  1 + 1·2^1 ◗, ◖ 93 = -3 + 3·2^5 ◗, ◖ 741 = -3 + 93·2^3 ◗]
  743 /3/ [◖ 1 ◗, ◖ 3 =  1 + 1·2^1 ◗, ◖ 93 = -3 + 3·2^5 ◗, ◖ 743 = -1 + 93·2^3 ◗]
  745 /3/ [◖ 1 ◗, ◖ 3 =  1 + 1·2^1 ◗, ◖ 93 = -3 + 3·2^5 ◗, ◖ 745 =  1 + 93·2^3 ◗]
  747 /3/ [◖ 1 ◗, ◖ 3 =  1 + 1·2^1 ◗, ◖ 93 = -3 + 3·2^5 ◗, ◖ 747 =  3 + 93·2^3 ◗]
  749 /3/ [◖ 1 ◗, ◖ 3 =  1 + 1·2^1 ◗, ◖ 47 = -1 + 3·2^4 ◗, ◖ 749 = -3 + 47·2^4 ◗]
  751 /3/ [◖ 1 ◗, ◖ 3 =  1 + 1·2^1 ◗, ◖ 47 = -1 + 3·2^4 ◗, ◖ 751 = -1 + 47·2^4 ◗]
  753 /3/ [◖ 1 ◗, ◖ 3 =  1 + 1·2^1 ◗, ◖ 47 = -1 + 3·2^4 ◗, ◖ 753 =  1 + 47·2^4 ◗]
  755 /3/ [◖ 1 ◗, ◖ 3 =  1 + 1·2^1 ◗, ◖ 189 = -3 + 3·2^6 ◗, ◖ 755 = -1 + 189·2^2 ◗]
  757 /3/ [◖ 1 ◗, ◖ 3 =  1 + 1·2^1 ◗, ◖ 189 = -3 + 3·2^6 ◗, ◖ 757 =  1 + 189·2^2 ◗]
  759 /3/ [◖ 1 ◗, ◖ 3 =  1 + 1·2^1 ◗, ◖ 95 = -1 + 3·2^5 ◗, ◖ 759 = -1 + 95·2^3 ◗]
  761 /3/ [◖ 1 ◗, ◖ 3 =  1 + 1·2^1 ◗, ◖ 95 = -1 + 3·2^5 ◗, ◖ 761 =  1 + 95·2^3 ◗]
  763 /3/ [◖ 1 ◗, ◖ 3 =  1 + 1·2^1 ◗, ◖ 191 = -1 + 3·2^6 ◗, ◖ 763 = -1 + 191·2^2 ◗]
  765 /2/ [◖ 1 ◗, ◖ 3 =  1 + 1·2^1 ◗, ◖ 765 = -3 + 3·2^8 ◗]
  767 /2/ [◖ 1 ◗, ◖ 3 =  1 + 1·2^1 ◗, ◖ 767 = -1 + 3·2^8 ◗]
".
Definition g11_12 : string := "  769 /2/ [◖ 1 ◗, ◖ 3 =  1 + 1·2^1 ◗, ◖ 769 =  1 + 3·2^8 ◗]
  771 /2/ [◖ 1 ◗, ◖ 3 =  1 + 1·2^1 ◗, ◖ 771 =  3 + 3·2^8 ◗]
  773 /3/ [◖ 1 ◗, ◖ 3 =  1 + 1·2^1 ◗, ◖ 193 =  1 + 3·2^6 ◗, ◖ 773 =  1 + 193·2^2 ◗]
  775 /3/ [◖ 1 ◗, ◖ 3 =  1 + 1·2^1 ◗, ◖ 97 =  1 + 3·2^5 ◗, ◖ 775 = -1 + 97·2^3 ◗]
  777 /3/ [◖ 1 ◗, ◖ 3 =  1 + 1·2^1 ◗, ◖ 97 =  1 + 3·2^5 ◗, ◖ 777 =  1 + 97·2^3 ◗]
  779 /3/ [◖ 1 ◗, ◖ 3 =  1 + 1·2^1 ◗, ◖ 195 =  3 + 3·2^6 ◗, ◖ 779 = -1 + 195·2^2 ◗]
  781 /3/ [◖ 1 ◗, ◖ 3 =  1 + 1·2^1 ◗, ◖ 195 =  3 + 3·2^6 ◗, ◖ 781 =  1 + 195·2^2 ◗]
  783 /3/ [◖ 1 ◗, ◖ 3 =  1 + 1·2^1 ◗, ◖ 49 =  1 + 3·2^4 ◗, ◖ 783 = -1 + 49·2^4 ◗]
  785 /3/ [◖ 1 ◗, ◖ 3 =  1 + 1·2^1 ◗, ◖ 49 =  1 + 3·2^4 ◗, ◖ 785 =  1 + 49·2^4 ◗]
  787 /3/ [◖ 1 ◗, ◖ 3 =  1 + 1·2^1 ◗, ◖ 49 =  1 + 3·2^4 ◗, ◖ 787 =  3 + 49·2^4 ◗]
  789 /3/ [◖ 1 ◗, ◖ 3 =  1 + 1·2^1 ◗, ◖ 99 =  3 + 3·2^5 ◗, ◖ 789 = -3 + 99·2^3 ◗]
  791 /3/ [◖ 1 ◗, ◖ 3 =  1 + 1·2^1 ◗, ◖ 99 =  3 + 3·2^5 ◗, ◖ 791 = -1 + 99·2^3 ◗]
  793 /3/ [◖ 1 ◗, ◖ 3 =  1 + 1·2^1 ◗, ◖ 99 =  3 + 3·2^5 ◗, ◖ 793 =  1 + 99·2^3 ◗]
  795 /3/ [◖ 1 ◗, ◖ 3 =  1 + 1·2^1 ◗, ◖ 99 =  3 + 3·2^5 ◗, ◖ 795 =  3 + 99·2^3 ◗]
  797 /3/ [◖ 1 ◗, ◖ 3 =  1 + 1·2^1 ◗, ◖ 25 =  1 + 3·2^3 ◗, ◖ 797 = -3 + 25·2^5 ◗]
  799 /3/ [◖ 1 ◗, ◖ 3 =  1 + 1·2^1 ◗, ◖ 25 =  1 + 3·2^3 ◗, ◖ 799 = -1 + 25·2^5 ◗]
  801 /3/ [◖ 1 ◗, ◖ 3 =  1 + 1·2^1 ◗, ◖ 25 =  1 + 3·2^3 ◗, ◖ 801 =  1 + 25·2^5 ◗]
  803 /3/ [◖ 1 ◗, ◖ 3 =  1 + 1·2^1 ◗, ◖ 25 =  1 + 3·2^3 ◗, ◖ 803 =  3 + 25·2^5 ◗]
  805 /3/ [◖ 1 ◗, ◖ 5 =  1 + 1·2^2 ◗, ◖ 161 =  1 + 5·2^5 ◗, ◖ 805 =  161 + 161·2^2 ◗]
  807 /3/ [◖ 1 ◗, ◖ 7 = -1 + 1·2^3 ◗, ◖ 217 = -7 + 7·2^5 ◗, ◖ 807 = -217 + 1·2^10 ◗]
  809 /3/ [◖ 1 ◗, ◖ 9 =  1 + 1·2^3 ◗, ◖ 297 =  9 + 9·2^5 ◗, ◖ 809 =  297 + 1·2^9 ◗]
  811 /4/ [◖ 1 ◗, ◖ 3 =  1 + 1·2^1 ◗, ◖ 51 =  3 + 3·2^4 ◗, ◖ 203 = -1 + 51·2^2 ◗, ◖ 811 = -1 + 203·2^2 ◗]
  813 /3/ [◖ 1 ◗, ◖ 3 =  1 + 1·2^1 ◗, ◖ 51 =  3 + 3·2^4 ◗, ◖ 813 = -3 + 51·2^4 ◗]
  815 /3/ [◖ 1 ◗, ◖ 3 =  1 + 1·2^1 ◗, ◖ 51 =  3 + 3·2^4 ◗, ◖ 815 = -1 + 51·2^4 ◗]
  817 /3/ [◖ 1 ◗, ◖ 3 =  1 + 1·2^1 ◗, ◖ 51 =  3 + 3·2^4 ◗, ◖ 817 =  1 + 51·2^4 ◗]
  819 /3/ [◖ 1 ◗, ◖ 3 =  1 + 1·2^1 ◗, ◖ 51 =  3 + 3·2^4 ◗, ◖ 819 =  3 + 51·2^4 ◗]
  821 /4/ [◖ 1 ◗, ◖ 3 =  1 + 1·2^1 ◗, ◖ 51 =  3 + 3·2^4 ◗, ◖ 205 =  1 + 51·2^2 ◗, ◖ 821 =  1 + 205·2^2 ◗]
  823 /3/ [◖ 1 ◗, ◖ 9 =  1 + 1·2^3 ◗, ◖ 567 = -9 + 9·2^6 ◗, ◖ 823 =  567 + 1·2^8 ◗]
  825 /3/ [◖ 1 ◗, ◖ 3 =  1 + 1·2^1 ◗, ◖ 25 =  1 + 3·2^3 ◗, ◖ 825 =  25 + 25·2^5 ◗]
  827 /3/ [◖ 1 ◗, ◖ 5 =  1 + 1·2^2 ◗, ◖ 315 = -5 + 5·2^6 ◗, ◖ 827 =  315 + 1·2^9 ◗]
  829 /3/ [◖ 1 ◗, ◖ 3 =  1 + 1·2^1 ◗, ◖ 13 =  1 + 3·2^2 ◗, ◖ 829 = -3 + 13·2^6 ◗]
  831 /3/ [◖ 1 ◗, ◖ 3 =  1 + 1·2^1 ◗, ◖ 13 =  1 + 3·2^2 ◗, ◖ 831 = -1 + 13·2^6 ◗]
".
Definition g11_13 : string := "  833 /3/ [◖ 1 ◗, ◖ 3 =  1 + 1·2^1 ◗, ◖ 13 =  1 + 3·2^2 ◗, ◖ 833 =  1 + 13·2^6 ◗]
  835 /3/ [◖ 1 ◗, ◖ 3 =  1 + 1·2^1 ◗, ◖ 13 =  1 + 3·2^2 ◗, ◖ 835 =  3 + 13·2^6 ◗]
  837 /3/ [◖ 1 ◗, ◖ 7 = -1 + 1·2^3 ◗, ◖ 27 = -1 + 7·2^2 ◗, ◖ 837 = -27 + 27·2^5 ◗]
  839 /3/ [◖ 1 ◗, ◖ 7 = -1 + 1·2^3 ◗, ◖ 105 = -7 + 7·2^4 ◗, ◖ 839 = -1 + 105·2^3 ◗]
  841 /3/ [◖ 1 ◗, ◖ 7 = -1 + 1·2^3 ◗, ◖ 105 = -7 + 7·2^4 ◗, ◖ 841 =  1 + 105·2^3 ◗]
  843 /4/ [◖ 1 ◗, ◖ 7 = -1 + 1·2^3 ◗, ◖ 105 = -7 + 7·2^4 ◗, ◖ 211 =  1 + 105·2^1 ◗, ◖ 843 = -1 + 211·2^2 ◗]
  845 /3/ [◖ 1 ◗, ◖ 3 =  1 + 1·2^1 ◗, ◖ 13 =  1 + 3·2^2 ◗, ◖ 845 =  13 + 13·2^6 ◗]
  847 /3/ [◖ 1 ◗, ◖ 7 = -1 + 1·2^3 ◗, ◖ 105 = -7 + 7·2^4 ◗, ◖ 847 =  7 + 105·2^3 ◗]
  849 /3/ [◖ 1 ◗, ◖ 17 =  1 + 1·2^4 ◗, ◖ 1105 =  17 + 17·2^6 ◗, ◖ 849 =  1105 - 1·2^8 ◗]
  851 /4/ [◖ 1 ◗, ◖ 7 = -1 + 1·2^3 ◗, ◖ 27 = -1 + 7·2^2 ◗, ◖ 425 = -7 + 27·2^4 ◗, ◖ 851 =  1 + 425·2^1 ◗]
  853 /4/ [◖ 1 ◗, ◖ 7 = -1 + 1·2^3 ◗, ◖ 55 = -1 + 7·2^3 ◗, ◖ 213 = -7 + 55·2^2 ◗, ◖ 853 =  1 + 213·2^2 ◗]
  855 /3/ [◖ 1 ◗, ◖ 3 =  1 + 1·2^1 ◗, ◖ 95 = -1 + 3·2^5 ◗, ◖ 855 =  95 + 95·2^3 ◗]
  857 /3/ [◖ 1 ◗, ◖ 7 = -1 + 1·2^3 ◗, ◖ 27 = -1 + 7·2^2 ◗, ◖ 857 = -7 + 27·2^5 ◗]
  859 /3/ [◖ 1 ◗, ◖ 5 =  1 + 1·2^2 ◗, ◖ 165 =  5 + 5·2^5 ◗, ◖ 859 = -165 + 1·2^10 ◗]
  861 /3/ [◖ 1 ◗, ◖ 7 = -1 + 1·2^3 ◗, ◖ 217 = -7 + 7·2^5 ◗, ◖ 861 = -7 + 217·2^2 ◗]
  863 /3/ [◖ 1 ◗, ◖ 7 = -1 + 1·2^3 ◗, ◖ 27 = -1 + 7·2^2 ◗, ◖ 863 = -1 + 27·2^5 ◗]
  865 /3/ [◖ 1 ◗, ◖ 7 = -1 + 1·2^3 ◗, ◖ 27 = -1 + 7·2^2 ◗, ◖ 865 =  1 + 27·2^5 ◗]
  867 /3/ [◖ 1 ◗, ◖ 7 = -1 + 1·2^3 ◗, ◖ 217 = -7 + 7·2^5 ◗, ◖ 867 = -1 + 217·2^2 ◗]
  869 /3/ [◖ 1 ◗, ◖ 7 = -1 + 1·2^3 ◗, ◖ 217 = -7 + 7·2^5 ◗, ◖ 869 =  1 + 217·2^2 ◗]
  871 /3/ [◖ 1 ◗, ◖ 7 = -1 + 1·2^3 ◗, ◖ 27 = -1 + 7·2^2 ◗, ◖ 871 =  7 + 27·2^5 ◗]
  873 /3/ [◖ 1 ◗, ◖ 7 = -1 + 1·2^3 ◗, ◖ 55 = -1 + 7·2^3 ◗, ◖ 873 = -7 + 55·2^4 ◗]
  875 /3/ [◖ 1 ◗, ◖ 7 = -1 + 1·2^3 ◗, ◖ 217 = -7 + 7·2^5 ◗, ◖ 875 =  7 + 217·2^2 ◗]
  877 /4/ [◖ 1 ◗, ◖ 7 = -1 + 1·2^3 ◗, ◖ 55 = -1 + 7·2^3 ◗, ◖ 219 = -1 + 55·2^2 ◗, ◖ 877 =  1 + 219·2^2 ◗]
  879 /3/ [◖ 1 ◗, ◖ 7 = -1 + 1·2^3 ◗, ◖ 55 = -1 + 7·2^3 ◗, ◖ 879 = -1 + 55·2^4 ◗]
  881 /3/ [◖ 1 ◗, ◖ 7 = -1 + 1·2^3 ◗, ◖ 55 = -1 + 7·2^3 ◗, ◖ 881 =  1 + 55·2^4 ◗]
  883 /3/ [◖ 1 ◗, ◖ 7 = -1 + 1·2^3 ◗, ◖ 441 = -7 + 7·2^6 ◗, ◖ 883 =  1 + 441·2^1 ◗]
  885 /3/ [◖ 1 ◗, ◖ 7 = -1 + 1·2^3 ◗, ◖ 223 = -1 + 7·2^5 ◗, ◖ 885 = -7 + 223·2^2 ◗]
  887 /3/ [◖ 1 ◗, ◖ 7 = -1 + 1·2^3 ◗, ◖ 111 = -1 + 7·2^4 ◗, ◖ 887 = -1 + 111·2^3 ◗]
  889 /2/ [◖ 1 ◗, ◖ 7 = -1 + 1·2^3 ◗, ◖ 889 = -7 + 7·2^7 ◗]
  891 /3/ [◖ 1 ◗, ◖ 7 = -1 + 1·2^3 ◗, ◖ 223 = -1 + 7·2^5 ◗, ◖ 891 = -1 + 223·2^2 ◗]
  893 /3/ [◖ 1 ◗, ◖ 7 = -1 + 1·2^3 ◗, ◖ 223 = -1 + 7·2^5 ◗, ◖ 893 =  1 + 223·2^2 ◗]
  895 /2/ [◖ 1 ◗, ◖ 7 = -1 + 1·2^3 ◗, ◖ 895 = -1 + 7·2^7 ◗]
".
Definition g11_14 : string := "  897 /2/ [◖ 1 ◗, ◖ 7 = -1 + 1·2^3 ◗, ◖ 897 =  1 + 7·2^7 ◗]
  899 /3/ [◖ 1 ◗, ◖ 7 = -1 + 1·2^3 ◗, ◖ 225 =  1 + 7·2^5 ◗, ◖ 899 = -1 + 225·2^2 ◗]
  901 /3/ [◖ 1 ◗, ◖ 7 = -1 + 1·2^3 ◗, ◖ 225 =  1 + 7·2^5 ◗, ◖ 901 =  1 + 225·2^2 ◗]
  903 /2/ [◖ 1 ◗, ◖ 7 = -1 + 1·2^3 ◗, ◖ 903 =  7 + 7·2^7 ◗]
  905 /3/ [◖ 1 ◗, ◖ 7 = -1 + 1·2^3 ◗, ◖ 113 =  1 + 7·2^4 ◗, ◖ 905 =  1 + 113·2^3 ◗]
  907 /3/ [◖ 1 ◗, ◖ 7 = -1 + 1·2^3 ◗, ◖ 225 =  1 + 7·2^5 ◗, ◖ 907 =  7 + 225·2^2 ◗]
  909 /3/ [◖ 1 ◗, ◖ 7 = -1 + 1·2^3 ◗, ◖ 455 =  7 + 7·2^6 ◗, ◖ 909 = -1 + 455·2^1 ◗]
  911 /3/ [◖ 1 ◗, ◖ 7 = -1 + 1·2^3 ◗, ◖ 57 =  1 + 7·2^3 ◗, ◖ 911 = -1 + 57·2^4 ◗]
  913 /3/ [◖ 1 ◗, ◖ 7 = -1 + 1·2^3 ◗, ◖ 57 =  1 + 7·2^3 ◗, ◖ 913 =  1 + 57·2^4 ◗]
  915 /3/ [◖ 1 ◗, ◖ 15 = -1 + 1·2^4 ◗, ◖ 465 = -15 + 15·2^5 ◗, ◖ 915 = -15 + 465·2^1 ◗]
  917 /3/ [◖ 1 ◗, ◖ 7 = -1 + 1·2^3 ◗, ◖ 231 =  7 + 7·2^5 ◗, ◖ 917 = -7 + 231·2^2 ◗]
  919 /3/ [◖ 1 ◗, ◖ 7 = -1 + 1·2^3 ◗, ◖ 57 =  1 + 7·2^3 ◗, ◖ 919 =  7 + 57·2^4 ◗]
  921 /3/ [◖ 1 ◗, ◖ 7 = -1 + 1·2^3 ◗, ◖ 29 =  1 + 7·2^2 ◗, ◖ 921 = -7 + 29·2^5 ◗]
  923 /3/ [◖ 1 ◗, ◖ 7 = -1 + 1·2^3 ◗, ◖ 231 =  7 + 7·2^5 ◗, ◖ 923 = -1 + 231·2^2 ◗]
  925 /3/ [◖ 1 ◗, ◖ 7 = -1 + 1·2^3 ◗, ◖ 231 =  7 + 7·2^5 ◗, ◖ 925 =  1 + 231·2^2 ◗]
  927 /3/ [◖ 1 ◗, ◖ 7 = -1 + 1·2^3 ◗, ◖ 29 =  1 + 7·2^2 ◗, ◖ 927 = -1 + 29·2^5 ◗]
  929 /3/ [◖ 1 ◗, ◖ 7 = -1 + 1·2^3 ◗, ◖ 29 =  1 + 7·2^2 ◗, ◖ 929 =  1 + 29·2^5 ◗]
  931 /3/ [◖ 1 ◗, ◖ 15 = -1 + 1·2^4 ◗, ◖ 465 = -15 + 15·2^5 ◗, ◖ 931 =  1 + 465·2^1 ◗]
  933 /4/ [◖ 1 ◗, ◖ 7 = -1 + 1·2^3 ◗, ◖ 29 =  1 + 7·2^2 ◗, ◖ 233 =  1 + 29·2^3 ◗, ◖ 933 =  1 + 233·2^2 ◗]
  935 /3/ [◖ 1 ◗, ◖ 7 = -1 + 1·2^3 ◗, ◖ 29 =  1 + 7·2^2 ◗, ◖ 935 =  7 + 29·2^5 ◗]
  937 /3/ [◖ 1 ◗, ◖ 15 = -1 + 1·2^4 ◗, ◖ 119 = -1 + 15·2^3 ◗, ◖ 937 = -15 + 119·2^3 ◗]
  939 /3/ [◖ 1 ◗, ◖ 5 =  1 + 1·2^2 ◗, ◖ 85 =  5 + 5·2^4 ◗, ◖ 939 = -85 + 1·2^10 ◗]
  941 /3/ [◖ 1 ◗, ◖ 15 = -1 + 1·2^4 ◗, ◖ 239 = -1 + 15·2^4 ◗, ◖ 941 = -15 + 239·2^2 ◗]
  943 /3/ [◖ 1 ◗, ◖ 15 = -1 + 1·2^4 ◗, ◖ 59 = -1 + 15·2^2 ◗, ◖ 943 = -1 + 59·2^4 ◗]
  945 /2/ [◖ 1 ◗, ◖ 15 = -1 + 1·2^4 ◗, ◖ 945 = -15 + 15·2^6 ◗]
  947 /3/ [◖ 1 ◗, ◖ 15 = -1 + 1·2^4 ◗, ◖ 481 =  1 + 15·2^5 ◗, ◖ 947 = -15 + 481·2^1 ◗]
  949 /3/ [◖ 1 ◗, ◖ 15 = -1 + 1·2^4 ◗, ◖ 241 =  1 + 15·2^4 ◗, ◖ 949 = -15 + 241·2^2 ◗]
  951 /3/ [◖ 1 ◗, ◖ 15 = -1 + 1·2^4 ◗, ◖ 119 = -1 + 15·2^3 ◗, ◖ 951 = -1 + 119·2^3 ◗]
  953 /3/ [◖ 1 ◗, ◖ 15 = -1 + 1·2^4 ◗, ◖ 119 = -1 + 15·2^3 ◗, ◖ 953 =  1 + 119·2^3 ◗]
  955 /3/ [◖ 1 ◗, ◖ 15 = -1 + 1·2^4 ◗, ◖ 239 = -1 + 15·2^4 ◗, ◖ 955 = -1 + 239·2^2 ◗]
  957 /3/ [◖ 1 ◗, ◖ 15 = -1 + 1·2^4 ◗, ◖ 239 = -1 + 15·2^4 ◗, ◖ 957 =  1 + 239·2^2 ◗]
  959 /2/ [◖ 1 ◗, ◖ 15 = -1 + 1·2^4 ◗, ◖ 959 = -1 + 15·2^6 ◗]
".
Definition g11_15 : string := "  961 /2/ [◖ 1 ◗, ◖ 15 = -1 + 1·2^4 ◗, ◖ 961 =  1 + 15·2^6 ◗]
  963 /3/ [◖ 1 ◗, ◖ 15 = -1 + 1·2^4 ◗, ◖ 241 =  1 + 15·2^4 ◗, ◖ 963 = -1 + 241·2^2 ◗]
  965 /3/ [◖ 1 ◗, ◖ 15 = -1 + 1·2^4 ◗, ◖ 241 =  1 + 15·2^4 ◗, ◖ 965 =  1 + 241·2^2 ◗]
  967 /3/ [◖ 1 ◗, ◖ 15 = -1 + 1·2^4 ◗, ◖ 121 =  1 + 15·2^3 ◗, ◖ 967 = -1 + 121·2^3 ◗]
  969 /3/ [◖ 1 ◗, ◖ 15 = -1 + 1·2^4 ◗, ◖ 121 =  1 + 15·2^3 ◗, ◖ 969 =  1 + 121·2^3 ◗]
  971 /3/ [◖ 1 ◗, ◖ 15 = -1 + 1·2^4 ◗, ◖ 239 = -1 + 15·2^4 ◗, ◖ 971 =  15 + 239·2^2 ◗]
  973 /3/ [◖ 1 ◗, ◖ 15 = -1 + 1·2^4 ◗, ◖ 479 = -1 + 15·2^5 ◗, ◖ 973 =  15 + 479·2^1 ◗]
  975 /2/ [◖ 1 ◗, ◖ 15 = -1 + 1·2^4 ◗, ◖ 975 =  15 + 15·2^6 ◗]
  977 /3/ [◖ 1 ◗, ◖ 15 = -1 + 1·2^4 ◗, ◖ 61 =  1 + 15·2^2 ◗, ◖ 977 =  1 + 61·2^4 ◗]
  979 /3/ [◖ 1 ◗, ◖ 15 = -1 + 1·2^4 ◗, ◖ 241 =  1 + 15·2^4 ◗, ◖ 979 =  15 + 241·2^2 ◗]
  981 /4/ [◖ 1 ◗, ◖ 15 = -1 + 1·2^4 ◗, ◖ 61 =  1 + 15·2^2 ◗, ◖ 245 =  1 + 61·2^2 ◗, ◖ 981 =  1 + 245·2^2 ◗]
  983 /3/ [◖ 1 ◗, ◖ 31 = -1 + 1·2^5 ◗, ◖ 123 = -1 + 31·2^2 ◗, ◖ 983 = -1 + 123·2^3 ◗]
  985 /3/ [◖ 1 ◗, ◖ 31 = -1 + 1·2^5 ◗, ◖ 123 = -1 + 31·2^2 ◗, ◖ 985 =  1 + 123·2^3 ◗]
  987 /3/ [◖ 1 ◗, ◖ 31 = -1 + 1·2^5 ◗, ◖ 247 = -1 + 31·2^3 ◗, ◖ 987 = -1 + 247·2^2 ◗]
  989 /3/ [◖ 1 ◗, ◖ 31 = -1 + 1·2^5 ◗, ◖ 247 = -1 + 31·2^3 ◗, ◖ 989 =  1 + 247·2^2 ◗]
  991 /2/ [◖ 1 ◗, ◖ 31 = -1 + 1·2^5 ◗, ◖ 991 = -1 + 31·2^5 ◗]
  993 /2/ [◖ 1 ◗, ◖ 31 = -1 + 1·2^5 ◗, ◖ 993 =  1 + 31·2^5 ◗]
  995 /3/ [◖ 1 ◗, ◖ 31 = -1 + 1·2^5 ◗, ◖ 249 =  1 + 31·2^3 ◗, ◖ 995 = -1 + 249·2^2 ◗]
  997 /3/ [◖ 1 ◗, ◖ 31 = -1 + 1·2^5 ◗, ◖ 249 =  1 + 31·2^3 ◗, ◖ 997 =  1 + 249·2^2 ◗]
  999 /3/ [◖ 1 ◗, ◖ 31 = -1 + 1·2^5 ◗, ◖ 125 =  1 + 31·2^2 ◗, ◖ 999 = -1 + 125·2^3 ◗]
 1001 /3/ [◖ 1 ◗, ◖ 31 = -1 + 1·2^5 ◗, ◖ 125 =  1 + 31·2^2 ◗, ◖ 1001 =  1 + 125·2^3 ◗]
 1003 /3/ [◖ 1 ◗, ◖ 63 = -1 + 1·2^6 ◗, ◖ 251 = -1 + 63·2^2 ◗, ◖ 1003 = -1 + 251·2^2 ◗]
 1005 /3/ [◖ 1 ◗, ◖ 63 = -1 + 1·2^6 ◗, ◖ 251 = -1 + 63·2^2 ◗, ◖ 1005 =  1 + 251·2^2 ◗]
 1007 /2/ [◖ 1 ◗, ◖ 63 = -1 + 1·2^6 ◗, ◖ 1007 = -1 + 63·2^4 ◗]
 1009 /2/ [◖ 1 ◗, ◖ 63 = -1 + 1·2^6 ◗, ◖ 1009 =  1 + 63·2^4 ◗]
 1011 /3/ [◖ 1 ◗, ◖ 63 = -1 + 1·2^6 ◗, ◖ 253 =  1 + 63·2^2 ◗, ◖ 1011 = -1 + 253·2^2 ◗]
 1013 /3/ [◖ 1 ◗, ◖ 63 = -1 + 1·2^6 ◗, ◖ 253 =  1 + 63·2^2 ◗, ◖ 1013 =  1 + 253·2^2 ◗]
 1015 /2/ [◖ 1 ◗, ◖ 127 = -1 + 1·2^7 ◗, ◖ 1015 = -1 + 127·2^3 ◗]
 1017 /2/ [◖ 1 ◗, ◖ 127 = -1 + 1·2^7 ◗, ◖ 1017 =  1 + 127·2^3 ◗]
 1019 /2/ [◖ 1 ◗, ◖ 255 = -1 + 1·2^8 ◗, ◖ 1019 = -1 + 255·2^2 ◗]
 1021 /2/ [◖ 1 ◗, ◖ 255 = -1 + 1·2^8 ◗, ◖ 1021 =  1 + 255·2^2 ◗]
 1023 /1/ [◖ 1 ◗, ◖ 1023 = -1 + 1·2^10 ◗]
".
Definition g11_16 : string := " 1025 /1/ [◖ 1 ◗, ◖ 1025 =  1 + 1·2^10 ◗]
 1027 /2/ [◖ 1 ◗, ◖ 257 =  1 + 1·2^8 ◗, ◖ 1027 = -1 + 257·2^2 ◗]
 1029 /2/ [◖ 1 ◗, ◖ 257 =  1 + 1·2^8 ◗, ◖ 1029 =  1 + 257·2^2 ◗]
 1031 /2/ [◖ 1 ◗, ◖ 129 =  1 + 1·2^7 ◗, ◖ 1031 = -1 + 129·2^3 ◗]
 1033 /2/ [◖ 1 ◗, ◖ 129 =  1 + 1·2^7 ◗, ◖ 1033 =  1 + 129·2^3 ◗]
 1035 /3/ [◖ 1 ◗, ◖ 65 =  1 + 1·2^6 ◗, ◖ 259 = -1 + 65·2^2 ◗, ◖ 1035 = -1 + 259·2^2 ◗]
 1037 /3/ [◖ 1 ◗, ◖ 65 =  1 + 1·2^6 ◗, ◖ 259 = -1 + 65·2^2 ◗, ◖ 1037 =  1 + 259·2^2 ◗]
 1039 /2/ [◖ 1 ◗, ◖ 65 =  1 + 1·2^6 ◗, ◖ 1039 = -1 + 65·2^4 ◗]
 1041 /2/ [◖ 1 ◗, ◖ 65 =  1 + 1·2^6 ◗, ◖ 1041 =  1 + 65·2^4 ◗]
 1043 /3/ [◖ 1 ◗, ◖ 65 =  1 + 1·2^6 ◗, ◖ 261 =  1 + 65·2^2 ◗, ◖ 1043 = -1 + 261·2^2 ◗]
 1045 /3/ [◖ 1 ◗, ◖ 65 =  1 + 1·2^6 ◗, ◖ 261 =  1 + 65·2^2 ◗, ◖ 1045 =  1 + 261·2^2 ◗]
 1047 /3/ [◖ 1 ◗, ◖ 33 =  1 + 1·2^5 ◗, ◖ 131 = -1 + 33·2^2 ◗, ◖ 1047 = -1 + 131·2^3 ◗]
 1049 /3/ [◖ 1 ◗, ◖ 33 =  1 + 1·2^5 ◗, ◖ 131 = -1 + 33·2^2 ◗, ◖ 1049 =  1 + 131·2^3 ◗]
 1051 /3/ [◖ 1 ◗, ◖ 33 =  1 + 1·2^5 ◗, ◖ 263 = -1 + 33·2^3 ◗, ◖ 1051 = -1 + 263·2^2 ◗]
 1053 /3/ [◖ 1 ◗, ◖ 33 =  1 + 1·2^5 ◗, ◖ 263 = -1 + 33·2^3 ◗, ◖ 1053 =  1 + 263·2^2 ◗]
 1055 /2/ [◖ 1 ◗, ◖ 33 =  1 + 1·2^5 ◗, ◖ 1055 = -1 + 33·2^5 ◗]
 1057 /2/ [◖ 1 ◗, ◖ 33 =  1 + 1·2^5 ◗, ◖ 1057 =  1 + 33·2^5 ◗]
 1059 /3/ [◖ 1 ◗, ◖ 33 =  1 + 1·2^5 ◗, ◖ 265 =  1 + 33·2^3 ◗, ◖ 1059 = -1 + 265·2^2 ◗]
 1061 /3/ [◖ 1 ◗, ◖ 33 =  1 + 1·2^5 ◗, ◖ 265 =  1 + 33·2^3 ◗, ◖ 1061 =  1 + 265·2^2 ◗]
 1063 /3/ [◖ 1 ◗, ◖ 33 =  1 + 1·2^5 ◗, ◖ 133 =  1 + 33·2^2 ◗, ◖ 1063 = -1 + 133·2^3 ◗]
 1065 /3/ [◖ 1 ◗, ◖ 33 =  1 + 1·2^5 ◗, ◖ 133 =  1 + 33·2^2 ◗, ◖ 1065 =  1 + 133·2^3 ◗]
 1067 /3/ [◖ 1 ◗, ◖ 17 =  1 + 1·2^4 ◗, ◖ 271 = -1 + 17·2^4 ◗, ◖ 1067 = -17 + 271·2^2 ◗]
 1069 /3/ [◖ 1 ◗, ◖ 17 =  1 + 1·2^4 ◗, ◖ 543 = -1 + 17·2^5 ◗, ◖ 1069 = -17 + 543·2^1 ◗]
 1071 /2/ [◖ 1 ◗, ◖ 17 =  1 + 1·2^4 ◗, ◖ 1071 = -17 + 17·2^6 ◗]
 1073 /3/ [◖ 1 ◗, ◖ 17 =  1 + 1·2^4 ◗, ◖ 67 = -1 + 17·2^2 ◗, ◖ 1073 =  1 + 67·2^4 ◗]
 1075 /3/ [◖ 1 ◗, ◖ 17 =  1 + 1·2^4 ◗, ◖ 273 =  1 + 17·2^4 ◗, ◖ 1075 = -17 + 273·2^2 ◗]
 1077 /4/ [◖ 1 ◗, ◖ 17 =  1 + 1·2^4 ◗, ◖ 67 = -1 + 17·2^2 ◗, ◖ 269 =  1 + 67·2^2 ◗, ◖ 1077 =  1 + 269·2^2 ◗]
 1079 /3/ [◖ 1 ◗, ◖ 17 =  1 + 1·2^4 ◗, ◖ 135 = -1 + 17·2^3 ◗, ◖ 1079 = -1 + 135·2^3 ◗]
 1081 /3/ [◖ 1 ◗, ◖ 17 =  1 + 1·2^4 ◗, ◖ 135 = -1 + 17·2^3 ◗, ◖ 1081 =  1 + 135·2^3 ◗]
 1083 /3/ [◖ 1 ◗, ◖ 17 =  1 + 1·2^4 ◗, ◖ 271 = -1 + 17·2^4 ◗, ◖ 1083 = -1 + 271·2^2 ◗]
 1085 /3/ [◖ 1 ◗, ◖ 17 =  1 + 1·2^4 ◗, ◖ 271 = -1 + 17·2^4 ◗, ◖ 1085 =  1 + 271·2^2 ◗]
 1087 /2/ [◖ 1 ◗, ◖ 17 =  1 + 1·2^4 ◗, ◖ 1087 = -1 + 17·2^6 ◗]
".
Definition g11_17 : string := " 1089 /2/ [◖ 1 ◗, ◖ 17 =  1 + 1·2^4 ◗, ◖ 1089 =  1 + 17·2^6 ◗]
 1091 /3/ [◖ 1 ◗, ◖ 17 =  1 + 1·2^4 ◗, ◖ 273 =  1 + 17·2^4 ◗, ◖ 1091 = -1 + 273·2^2 ◗]
 1093 /3/ [◖ 1 ◗, ◖ 17 =  1 + 1·2^4 ◗, ◖ 273 =  1 + 17·2^4 ◗, ◖ 1093 =  1 + 273·2^2 ◗]
 1095 /3/ [◖ 1 ◗, ◖ 17 =  1 + 1·2^4 ◗, ◖ 137 =  1 + 17·2^3 ◗, ◖ 1095 = -1 + 137·2^3 ◗]
 1097 /3/ [◖ 1 ◗, ◖ 17 =  1 + 1·2^4 ◗, ◖ 137 =  1 + 17·2^3 ◗, ◖ 1097 =  1 + 137·2^3 ◗]
 1099 /3/ [◖ 1 ◗, ◖ 5 =  1 + 1·2^2 ◗, ◖ 75 = -5 + 5·2^4 ◗, ◖ 1099 =  75 + 1·2^10 ◗]
 1101 /3/ [◖ 1 ◗, ◖ 17 =  1 + 1·2^4 ◗, ◖ 271 = -1 + 17·2^4 ◗, ◖ 1101 =  17 + 271·2^2 ◗]
 1103 /3/ [◖ 1 ◗, ◖ 17 =  1 + 1·2^4 ◗, ◖ 69 =  1 + 17·2^2 ◗, ◖ 1103 = -1 + 69·2^4 ◗]
 1105 /2/ [◖ 1 ◗, ◖ 17 =  1 + 1·2^4 ◗, ◖ 1105 =  17 + 17·2^6 ◗]
 1107 /3/ [◖ 1 ◗, ◖ 9 =  1 + 1·2^3 ◗, ◖ 279 = -9 + 9·2^5 ◗, ◖ 1107 = -9 + 279·2^2 ◗]
 1109 /3/ [◖ 1 ◗, ◖ 17 =  1 + 1·2^4 ◗, ◖ 273 =  1 + 17·2^4 ◗, ◖ 1109 =  17 + 273·2^2 ◗]
 1111 /3/ [◖ 1 ◗, ◖ 9 =  1 + 1·2^3 ◗, ◖ 35 = -1 + 9·2^2 ◗, ◖ 1111 = -9 + 35·2^5 ◗]
 1113 /3/ [◖ 1 ◗, ◖ 17 =  1 + 1·2^4 ◗, ◖ 137 =  1 + 17·2^3 ◗, ◖ 1113 =  17 + 137·2^3 ◗]
 1115 /3/ [◖ 1 ◗, ◖ 9 =  1 + 1·2^3 ◗, ◖ 279 = -9 + 9·2^5 ◗, ◖ 1115 = -1 + 279·2^2 ◗]
 1117 /3/ [◖ 1 ◗, ◖ 9 =  1 + 1·2^3 ◗, ◖ 279 = -9 + 9·2^5 ◗, ◖ 1117 =  1 + 279·2^2 ◗]
 1119 /3/ [◖ 1 ◗, ◖ 9 =  1 + 1·2^3 ◗, ◖ 35 = -1 + 9·2^2 ◗, ◖ 1119 = -1 + 35·2^5 ◗]
 1121 /3/ [◖ 1 ◗, ◖ 9 =  1 + 1·2^3 ◗, ◖ 35 = -1 + 9·2^2 ◗, ◖ 1121 =  1 + 35·2^5 ◗]
 1123 /3/ [◖ 1 ◗, ◖ 17 =  1 + 1·2^4 ◗, ◖ 561 =  17 + 17·2^5 ◗, ◖ 1123 =  1 + 561·2^1 ◗]
 1125 /3/ [◖ 1 ◗, ◖ 9 =  1 + 1·2^3 ◗, ◖ 279 = -9 + 9·2^5 ◗, ◖ 1125 =  9 + 279·2^2 ◗]
 1127 /3/ [◖ 1 ◗, ◖ 9 =  1 + 1·2^3 ◗, ◖ 71 = -1 + 9·2^3 ◗, ◖ 1127 = -9 + 71·2^4 ◗]
 1129 /3/ [◖ 1 ◗, ◖ 9 =  1 + 1·2^3 ◗, ◖ 35 = -1 + 9·2^2 ◗, ◖ 1129 =  9 + 35·2^5 ◗]
 1131 /4/ [◖ 1 ◗, ◖ 9 =  1 + 1·2^3 ◗, ◖ 71 = -1 + 9·2^3 ◗, ◖ 283 = -1 + 71·2^2 ◗, ◖ 1131 = -1 + 283·2^2 ◗]
 1133 /3/ [◖ 1 ◗, ◖ 9 =  1 + 1·2^3 ◗, ◖ 567 = -9 + 9·2^6 ◗, ◖ 1133 = -1 + 567·2^1 ◗]
 1135 /3/ [◖ 1 ◗, ◖ 9 =  1 + 1·2^3 ◗, ◖ 71 = -1 + 9·2^3 ◗, ◖ 1135 = -1 + 71·2^4 ◗]
 1137 /3/ [◖ 1 ◗, ◖ 9 =  1 + 1·2^3 ◗, ◖ 71 = -1 + 9·2^3 ◗, ◖ 1137 =  1 + 71·2^4 ◗]
 1139 /3/ [◖ 1 ◗, ◖ 9 =  1 + 1·2^3 ◗, ◖ 287 = -1 + 9·2^5 ◗, ◖ 1139 = -9 + 287·2^2 ◗]
 1141 /3/ [◖ 1 ◗, ◖ 9 =  1 + 1·2^3 ◗, ◖ 575 = -1 + 9·2^6 ◗, ◖ 1141 = -9 + 575·2^1 ◗]
 1143 /2/ [◖ 1 ◗, ◖ 9 =  1 + 1·2^3 ◗, ◖ 1143 = -9 + 9·2^7 ◗]
 1145 /3/ [◖ 1 ◗, ◖ 9 =  1 + 1·2^3 ◗, ◖ 143 = -1 + 9·2^4 ◗, ◖ 1145 =  1 + 143·2^3 ◗]
 1147 /3/ [◖ 1 ◗, ◖ 9 =  1 + 1·2^3 ◗, ◖ 287 = -1 + 9·2^5 ◗, ◖ 1147 = -1 + 287·2^2 ◗]
 1149 /3/ [◖ 1 ◗, ◖ 9 =  1 + 1·2^3 ◗, ◖ 287 = -1 + 9·2^5 ◗, ◖ 1149 =  1 + 287·2^2 ◗]
 1151 /2/ [◖ 1 ◗, ◖ 9 =  1 + 1·2^3 ◗, ◖ 1151 = -1 + 9·2^7 ◗]
".
Definition g11_18 : string := " 1153 /2/ [◖ 1 ◗, ◖ 9 =  1 + 1·2^3 ◗, ◖ 1153 =  1 + 9·2^7 ◗]
 1155 /3/ [◖ 1 ◗, ◖ 9 =  1 + 1·2^3 ◗, ◖ 289 =  1 + 9·2^5 ◗, ◖ 1155 = -1 + 289·2^2 ◗]
 1157 /3/ [◖ 1 ◗, ◖ 9 =  1 + 1·2^3 ◗, ◖ 289 =  1 + 9·2^5 ◗, ◖ 1157 =  1 + 289·2^2 ◗]
 1159 /3/ [◖ 1 ◗, ◖ 9 =  1 + 1·2^3 ◗, ◖ 145 =  1 + 9·2^4 ◗, ◖ 1159 = -1 + 145·2^3 ◗]
 1161 /2/ [◖ 1 ◗, ◖ 9 =  1 + 1·2^3 ◗, ◖ 1161 =  9 + 9·2^7 ◗]
 1163 /3/ [◖ 1 ◗, ◖ 9 =  1 + 1·2^3 ◗, ◖ 577 =  1 + 9·2^6 ◗, ◖ 1163 =  9 + 577·2^1 ◗]
 1165 /3/ [◖ 1 ◗, ◖ 9 =  1 + 1·2^3 ◗, ◖ 289 =  1 + 9·2^5 ◗, ◖ 1165 =  9 + 289·2^2 ◗]
 1167 /3/ [◖ 1 ◗, ◖ 9 =  1 + 1·2^3 ◗, ◖ 73 =  1 + 9·2^3 ◗, ◖ 1167 = -1 + 73·2^4 ◗]
 1169 /3/ [◖ 1 ◗, ◖ 9 =  1 + 1·2^3 ◗, ◖ 73 =  1 + 9·2^3 ◗, ◖ 1169 =  1 + 73·2^4 ◗]
 1171 /3/ [◖ 1 ◗, ◖ 9 =  1 + 1·2^3 ◗, ◖ 585 =  9 + 9·2^6 ◗, ◖ 1171 =  1 + 585·2^1 ◗]
 1173 /3/ [◖ 1 ◗, ◖ 17 =  1 + 1·2^4 ◗, ◖ 69 =  1 + 17·2^2 ◗, ◖ 1173 =  69 + 69·2^4 ◗]
 1175 /3/ [◖ 1 ◗, ◖ 9 =  1 + 1·2^3 ◗, ◖ 37 =  1 + 9·2^2 ◗, ◖ 1175 = -9 + 37·2^5 ◗]
 1177 /3/ [◖ 1 ◗, ◖ 9 =  1 + 1·2^3 ◗, ◖ 73 =  1 + 9·2^3 ◗, ◖ 1177 =  9 + 73·2^4 ◗]
 1179 /3/ [◖ 1 ◗, ◖ 9 =  1 + 1·2^3 ◗, ◖ 297 =  9 + 9·2^5 ◗, ◖ 1179 = -9 + 297·2^2 ◗]
 1181 /4/ [◖ 1 ◗, ◖ 9 =  1 + 1·2^3 ◗, ◖ 37 =  1 + 9·2^2 ◗, ◖ 295 = -1 + 37·2^3 ◗, ◖ 1181 =  1 + 295·2^2 ◗]
 1183 /3/ [◖ 1 ◗, ◖ 9 =  1 + 1·2^3 ◗, ◖ 37 =  1 + 9·2^2 ◗, ◖ 1183 = -1 + 37·2^5 ◗]
 1185 /3/ [◖ 1 ◗, ◖ 9 =  1 + 1·2^3 ◗, ◖ 37 =  1 + 9·2^2 ◗, ◖ 1185 =  1 + 37·2^5 ◗]
 1187 /3/ [◖ 1 ◗, ◖ 9 =  1 + 1·2^3 ◗, ◖ 297 =  9 + 9·2^5 ◗, ◖ 1187 = -1 + 297·2^2 ◗]
 1189 /3/ [◖ 1 ◗, ◖ 9 =  1 + 1·2^3 ◗, ◖ 297 =  9 + 9·2^5 ◗, ◖ 1189 =  1 + 297·2^2 ◗]
 1191 /4/ [◖ 1 ◗, ◖ 9 =  1 + 1·2^3 ◗, ◖ 37 =  1 + 9·2^2 ◗, ◖ 149 =  1 + 37·2^2 ◗, ◖ 1191 = -1 + 149·2^3 ◗]
 1193 /3/ [◖ 1 ◗, ◖ 9 =  1 + 1·2^3 ◗, ◖ 37 =  1 + 9·2^2 ◗, ◖ 1193 =  9 + 37·2^5 ◗]
 1195 /3/ [◖ 1 ◗, ◖ 5 =  1 + 1·2^2 ◗, ◖ 75 = -5 + 5·2^4 ◗, ◖ 1195 = -5 + 75·2^4 ◗]
 1197 /3/ [◖ 1 ◗, ◖ 9 =  1 + 1·2^3 ◗, ◖ 297 =  9 + 9·2^5 ◗, ◖ 1197 =  9 + 297·2^2 ◗]
 1199 /3/ [◖ 1 ◗, ◖ 5 =  1 + 1·2^2 ◗, ◖ 75 = -5 + 5·2^4 ◗, ◖ 1199 = -1 + 75·2^4 ◗]
 1201 /3/ [◖ 1 ◗, ◖ 5 =  1 + 1·2^2 ◗, ◖ 75 = -5 + 5·2^4 ◗, ◖ 1201 =  1 + 75·2^4 ◗]
 1203 /4/ [◖ 1 ◗, ◖ 5 =  1 + 1·2^2 ◗, ◖ 75 = -5 + 5·2^4 ◗, ◖ 301 =  1 + 75·2^2 ◗, ◖ 1203 = -1 + 301·2^2 ◗]
 1205 /3/ [◖ 1 ◗, ◖ 5 =  1 + 1·2^2 ◗, ◖ 75 = -5 + 5·2^4 ◗, ◖ 1205 =  5 + 75·2^4 ◗]
 1207 /3/ [◖ 1 ◗, ◖ 9 =  1 + 1·2^3 ◗, ◖ 71 = -1 + 9·2^3 ◗, ◖ 1207 =  71 + 71·2^4 ◗]
 1209 /3/ [◖ 1 ◗, ◖ 5 =  1 + 1·2^2 ◗, ◖ 39 = -1 + 5·2^3 ◗, ◖ 1209 = -39 + 39·2^5 ◗]
 1211 /3/ [◖ 1 ◗, ◖ 5 =  1 + 1·2^2 ◗, ◖ 19 = -1 + 5·2^2 ◗, ◖ 1211 = -5 + 19·2^6 ◗]
 1213 /3/ [◖ 1 ◗, ◖ 3 =  1 + 1·2^1 ◗, ◖ 189 = -3 + 3·2^6 ◗, ◖ 1213 =  189 + 1·2^10 ◗]
 1215 /3/ [◖ 1 ◗, ◖ 5 =  1 + 1·2^2 ◗, ◖ 19 = -1 + 5·2^2 ◗, ◖ 1215 = -1 + 19·2^6 ◗]
".
Definition g11_19 : string := " 1217 /3/ [◖ 1 ◗, ◖ 5 =  1 + 1·2^2 ◗, ◖ 19 = -1 + 5·2^2 ◗, ◖ 1217 =  1 + 19·2^6 ◗]
 1219 /3/ [◖ 1 ◗, ◖ 3 =  1 + 1·2^1 ◗, ◖ 195 =  3 + 3·2^6 ◗, ◖ 1219 =  195 + 1·2^10 ◗]
 1221 /3/ [◖ 1 ◗, ◖ 5 =  1 + 1·2^2 ◗, ◖ 19 = -1 + 5·2^2 ◗, ◖ 1221 =  5 + 19·2^6 ◗]
 1223 /3/ [◖ 1 ◗, ◖ 9 =  1 + 1·2^3 ◗, ◖ 153 =  9 + 9·2^4 ◗, ◖ 1223 = -1 + 153·2^3 ◗]
 1225 /3/ [◖ 1 ◗, ◖ 9 =  1 + 1·2^3 ◗, ◖ 153 =  9 + 9·2^4 ◗, ◖ 1225 =  1 + 153·2^3 ◗]
 1227 /4/ [◖ 1 ◗, ◖ 9 =  1 + 1·2^3 ◗, ◖ 153 =  9 + 9·2^4 ◗, ◖ 307 =  1 + 153·2^1 ◗, ◖ 1227 = -1 + 307·2^2 ◗]
 1229 /4/ [◖ 1 ◗, ◖ 9 =  1 + 1·2^3 ◗, ◖ 153 =  9 + 9·2^4 ◗, ◖ 307 =  1 + 153·2^1 ◗, ◖ 1229 =  1 + 307·2^2 ◗]
 1231 /3/ [◖ 1 ◗, ◖ 15 = -1 + 1·2^4 ◗, ◖ 975 =  15 + 15·2^6 ◗, ◖ 1231 =  975 + 1·2^8 ◗]
 1233 /3/ [◖ 1 ◗, ◖ 9 =  1 + 1·2^3 ◗, ◖ 153 =  9 + 9·2^4 ◗, ◖ 1233 =  9 + 153·2^3 ◗]
 1235 /3/ [◖ 1 ◗, ◖ 5 =  1 + 1·2^2 ◗, ◖ 155 = -5 + 5·2^5 ◗, ◖ 1235 = -5 + 155·2^3 ◗]
 1237 /4/ [◖ 1 ◗, ◖ 5 =  1 + 1·2^2 ◗, ◖ 155 = -5 + 5·2^5 ◗, ◖ 309 = -1 + 155·2^1 ◗, ◖ 1237 =  1 + 309·2^2 ◗]
 1239 /3/ [◖ 1 ◗, ◖ 5 =  1 + 1·2^2 ◗, ◖ 155 = -5 + 5·2^5 ◗, ◖ 1239 = -1 + 155·2^3 ◗]
 1241 /3/ [◖ 1 ◗, ◖ 5 =  1 + 1·2^2 ◗, ◖ 155 = -5 + 5·2^5 ◗, ◖ 1241 =  1 + 155·2^3 ◗]
 1243 /3/ [◖ 1 ◗, ◖ 5 =  1 + 1·2^2 ◗, ◖ 39 = -1 + 5·2^3 ◗, ◖ 1243 = -5 + 39·2^5 ◗]
 1245 /3/ [◖ 1 ◗, ◖ 5 =  1 + 1·2^2 ◗, ◖ 155 = -5 + 5·2^5 ◗, ◖ 1245 =  5 + 155·2^3 ◗]
 1247 /3/ [◖ 1 ◗, ◖ 5 =  1 + 1·2^2 ◗, ◖ 39 = -1 + 5·2^3 ◗, ◖ 1247 = -1 + 39·2^5 ◗]
 1249 /3/ [◖ 1 ◗, ◖ 5 =  1 + 1·2^2 ◗, ◖ 39 = -1 + 5·2^3 ◗, ◖ 1249 =  1 + 39·2^5 ◗]
 1251 /4/ [◖ 1 ◗, ◖ 5 =  1 + 1·2^2 ◗, ◖ 39 = -1 + 5·2^3 ◗, ◖ 313 =  1 + 39·2^3 ◗, ◖ 1251 = -1 + 313·2^2 ◗]
 1253 /3/ [◖ 1 ◗, ◖ 5 =  1 + 1·2^2 ◗, ◖ 39 = -1 + 5·2^3 ◗, ◖ 1253 =  5 + 39·2^5 ◗]
 1255 /3/ [◖ 1 ◗, ◖ 5 =  1 + 1·2^2 ◗, ◖ 315 = -5 + 5·2^6 ◗, ◖ 1255 = -5 + 315·2^2 ◗]
 1257 /4/ [◖ 1 ◗, ◖ 5 =  1 + 1·2^2 ◗, ◖ 39 = -1 + 5·2^3 ◗, ◖ 157 =  1 + 39·2^2 ◗, ◖ 1257 =  1 + 157·2^3 ◗]
 1259 /3/ [◖ 1 ◗, ◖ 5 =  1 + 1·2^2 ◗, ◖ 315 = -5 + 5·2^6 ◗, ◖ 1259 = -1 + 315·2^2 ◗]
 1261 /3/ [◖ 1 ◗, ◖ 5 =  1 + 1·2^2 ◗, ◖ 315 = -5 + 5·2^6 ◗, ◖ 1261 =  1 + 315·2^2 ◗]
 1263 /3/ [◖ 1 ◗, ◖ 5 =  1 + 1·2^2 ◗, ◖ 79 = -1 + 5·2^4 ◗, ◖ 1263 = -1 + 79·2^4 ◗]
 1265 /3/ [◖ 1 ◗, ◖ 5 =  1 + 1·2^2 ◗, ◖ 79 = -1 + 5·2^4 ◗, ◖ 1265 =  1 + 79·2^4 ◗]
 1267 /3/ [◖ 1 ◗, ◖ 5 =  1 + 1·2^2 ◗, ◖ 159 = -1 + 5·2^5 ◗, ◖ 1267 = -5 + 159·2^3 ◗]
 1269 /3/ [◖ 1 ◗, ◖ 5 =  1 + 1·2^2 ◗, ◖ 635 = -5 + 5·2^7 ◗, ◖ 1269 = -1 + 635·2^1 ◗]
 1271 /3/ [◖ 1 ◗, ◖ 5 =  1 + 1·2^2 ◗, ◖ 159 = -1 + 5·2^5 ◗, ◖ 1271 = -1 + 159·2^3 ◗]
 1273 /3/ [◖ 1 ◗, ◖ 5 =  1 + 1·2^2 ◗, ◖ 159 = -1 + 5·2^5 ◗, ◖ 1273 =  1 + 159·2^3 ◗]
 1275 /2/ [◖ 1 ◗, ◖ 5 =  1 + 1·2^2 ◗, ◖ 1275 = -5 + 5·2^8 ◗]
 1277 /3/ [◖ 1 ◗, ◖ 5 =  1 + 1·2^2 ◗, ◖ 319 = -1 + 5·2^6 ◗, ◖ 1277 =  1 + 319·2^2 ◗]
 1279 /2/ [◖ 1 ◗, ◖ 5 =  1 + 1·2^2 ◗, ◖ 1279 = -1 + 5·2^8 ◗]
".
Definition g11_20 : string := " 1281 /2/ [◖ 1 ◗, ◖ 5 =  1 + 1·2^2 ◗, ◖ 1281 =  1 + 5·2^8 ◗]
 1283 /3/ [◖ 1 ◗, ◖ 5 =  1 + 1·2^2 ◗, ◖ 321 =  1 + 5·2^6 ◗, ◖ 1283 = -1 + 321·2^2 ◗]
 1285 /2/ [◖ 1 ◗, ◖ 5 =  1 + 1·2^2 ◗, ◖ 1285 =  5 + 5·2^8 ◗]
 1287 /3/ [◖ 1 ◗, ◖ 5 =  1 + 1·2^2 ◗, ◖ 161 =  1 + 5·2^5 ◗, ◖ 1287 = -1 + 161·2^3 ◗]
 1289 /3/ [◖ 1 ◗, ◖ 5 =  1 + 1·2^2 ◗, ◖ 161 =  1 + 5·2^5 ◗, ◖ 1289 =  1 + 161·2^3 ◗]
 1291 /3/ [◖ 1 ◗, ◖ 5 =  1 + 1·2^2 ◗, ◖ 645 =  5 + 5·2^7 ◗, ◖ 1291 =  1 + 645·2^1 ◗]
 1293 /3/ [◖ 1 ◗, ◖ 5 =  1 + 1·2^2 ◗, ◖ 161 =  1 + 5·2^5 ◗, ◖ 1293 =  5 + 161·2^3 ◗]
 1295 /3/ [◖ 1 ◗, ◖ 5 =  1 + 1·2^2 ◗, ◖ 81 =  1 + 5·2^4 ◗, ◖ 1295 = -1 + 81·2^4 ◗]
 1297 /3/ [◖ 1 ◗, ◖ 5 =  1 + 1·2^2 ◗, ◖ 81 =  1 + 5·2^4 ◗, ◖ 1297 =  1 + 81·2^4 ◗]
 1299 /3/ [◖ 1 ◗, ◖ 5 =  1 + 1·2^2 ◗, ◖ 325 =  5 + 5·2^6 ◗, ◖ 1299 = -1 + 325·2^2 ◗]
 1301 /3/ [◖ 1 ◗, ◖ 5 =  1 + 1·2^2 ◗, ◖ 325 =  5 + 5·2^6 ◗, ◖ 1301 =  1 + 325·2^2 ◗]
 1303 /3/ [◖ 1 ◗, ◖ 9 =  1 + 1·2^3 ◗, ◖ 279 = -9 + 9·2^5 ◗, ◖ 1303 =  279 + 1·2^10 ◗]
 1305 /3/ [◖ 1 ◗, ◖ 5 =  1 + 1·2^2 ◗, ◖ 325 =  5 + 5·2^6 ◗, ◖ 1305 =  5 + 325·2^2 ◗]
 1307 /3/ [◖ 1 ◗, ◖ 5 =  1 + 1·2^2 ◗, ◖ 41 =  1 + 5·2^3 ◗, ◖ 1307 = -5 + 41·2^5 ◗]
 1309 /4/ [◖ 1 ◗, ◖ 5 =  1 + 1·2^2 ◗, ◖ 41 =  1 + 5·2^3 ◗, ◖ 327 = -1 + 41·2^3 ◗, ◖ 1309 =  1 + 327·2^2 ◗]
 1311 /3/ [◖ 1 ◗, ◖ 5 =  1 + 1·2^2 ◗, ◖ 41 =  1 + 5·2^3 ◗, ◖ 1311 = -1 + 41·2^5 ◗]
 1313 /3/ [◖ 1 ◗, ◖ 5 =  1 + 1·2^2 ◗, ◖ 41 =  1 + 5·2^3 ◗, ◖ 1313 =  1 + 41·2^5 ◗]
 1315 /3/ [◖ 1 ◗, ◖ 5 =  1 + 1·2^2 ◗, ◖ 165 =  5 + 5·2^5 ◗, ◖ 1315 = -5 + 165·2^3 ◗]
 1317 /3/ [◖ 1 ◗, ◖ 5 =  1 + 1·2^2 ◗, ◖ 41 =  1 + 5·2^3 ◗, ◖ 1317 =  5 + 41·2^5 ◗]
 1319 /3/ [◖ 1 ◗, ◖ 5 =  1 + 1·2^2 ◗, ◖ 165 =  5 + 5·2^5 ◗, ◖ 1319 = -1 + 165·2^3 ◗]
 1321 /3/ [◖ 1 ◗, ◖ 5 =  1 + 1·2^2 ◗, ◖ 165 =  5 + 5·2^5 ◗, ◖ 1321 =  1 + 165·2^3 ◗]
 1323 /3/ [◖ 1 ◗, ◖ 5 =  1 + 1·2^2 ◗, ◖ 21 =  1 + 5·2^2 ◗, ◖ 1323 = -21 + 21·2^6 ◗]
 1325 /3/ [◖ 1 ◗, ◖ 5 =  1 + 1·2^2 ◗, ◖ 165 =  5 + 5·2^5 ◗, ◖ 1325 =  5 + 165·2^3 ◗]
 1327 /3/ [◖ 1 ◗, ◖ 17 =  1 + 1·2^4 ◗, ◖ 1071 = -17 + 17·2^6 ◗, ◖ 1327 =  1071 + 1·2^8 ◗]
 1329 /4/ [◖ 1 ◗, ◖ 5 =  1 + 1·2^2 ◗, ◖ 21 =  1 + 5·2^2 ◗, ◖ 83 = -1 + 21·2^2 ◗, ◖ 1329 =  1 + 83·2^4 ◗]
 1331 /4/ [◖ 1 ◗, ◖ 5 =  1 + 1·2^2 ◗, ◖ 41 =  1 + 5·2^3 ◗, ◖ 333 =  5 + 41·2^3 ◗, ◖ 1331 = -1 + 333·2^2 ◗]
 1333 /4/ [◖ 1 ◗, ◖ 5 =  1 + 1·2^2 ◗, ◖ 21 =  1 + 5·2^2 ◗, ◖ 667 = -5 + 21·2^5 ◗, ◖ 1333 = -1 + 667·2^1 ◗]
 1335 /4/ [◖ 1 ◗, ◖ 5 =  1 + 1·2^2 ◗, ◖ 21 =  1 + 5·2^2 ◗, ◖ 167 = -1 + 21·2^3 ◗, ◖ 1335 = -1 + 167·2^3 ◗]
 1337 /3/ [◖ 1 ◗, ◖ 3 =  1 + 1·2^1 ◗, ◖ 191 = -1 + 3·2^6 ◗, ◖ 1337 = -191 + 191·2^3 ◗]
 1339 /3/ [◖ 1 ◗, ◖ 5 =  1 + 1·2^2 ◗, ◖ 21 =  1 + 5·2^2 ◗, ◖ 1339 = -5 + 21·2^6 ◗]
 1341 /3/ [◖ 1 ◗, ◖ 7 = -1 + 1·2^3 ◗, ◖ 447 = -1 + 7·2^6 ◗, ◖ 1341 =  447 + 447·2^1 ◗]
 1343 /3/ [◖ 1 ◗, ◖ 5 =  1 + 1·2^2 ◗, ◖ 21 =  1 + 5·2^2 ◗, ◖ 1343 = -1 + 21·2^6 ◗]
".
Definition g11_21 : string := " 1345 /3/ [◖ 1 ◗, ◖ 5 =  1 + 1·2^2 ◗, ◖ 21 =  1 + 5·2^2 ◗, ◖ 1345 =  1 + 21·2^6 ◗]
 1347 /3/ [◖ 1 ◗, ◖ 7 = -1 + 1·2^3 ◗, ◖ 449 =  1 + 7·2^6 ◗, ◖ 1347 =  449 + 449·2^1 ◗]
 1349 /3/ [◖ 1 ◗, ◖ 5 =  1 + 1·2^2 ◗, ◖ 21 =  1 + 5·2^2 ◗, ◖ 1349 =  5 + 21·2^6 ◗]
 1351 /3/ [◖ 1 ◗, ◖ 3 =  1 + 1·2^1 ◗, ◖ 193 =  1 + 3·2^6 ◗, ◖ 1351 = -193 + 193·2^3 ◗]
 1353 /3/ [◖ 1 ◗, ◖ 5 =  1 + 1·2^2 ◗, ◖ 41 =  1 + 5·2^3 ◗, ◖ 1353 =  41 + 41·2^5 ◗]
 1355 /3/ [◖ 1 ◗, ◖ 5 =  1 + 1·2^2 ◗, ◖ 85 =  5 + 5·2^4 ◗, ◖ 1355 = -5 + 85·2^4 ◗]
 1357 /4/ [◖ 1 ◗, ◖ 5 =  1 + 1·2^2 ◗, ◖ 85 =  5 + 5·2^4 ◗, ◖ 339 = -1 + 85·2^2 ◗, ◖ 1357 =  1 + 339·2^2 ◗]
 1359 /3/ [◖ 1 ◗, ◖ 5 =  1 + 1·2^2 ◗, ◖ 85 =  5 + 5·2^4 ◗, ◖ 1359 = -1 + 85·2^4 ◗]
 1361 /3/ [◖ 1 ◗, ◖ 5 =  1 + 1·2^2 ◗, ◖ 85 =  5 + 5·2^4 ◗, ◖ 1361 =  1 + 85·2^4 ◗]
 1363 /4/ [◖ 1 ◗, ◖ 5 =  1 + 1·2^2 ◗, ◖ 85 =  5 + 5·2^4 ◗, ◖ 341 =  1 + 85·2^2 ◗, ◖ 1363 = -1 + 341·2^2 ◗]
 1365 /3/ [◖ 1 ◗, ◖ 5 =  1 + 1·2^2 ◗, ◖ 85 =  5 + 5·2^4 ◗, ◖ 1365 =  5 + 85·2^4 ◗]
 1367 /4/ [◖ 1 ◗, ◖ 5 =  1 + 1·2^2 ◗, ◖ 85 =  5 + 5·2^4 ◗, ◖ 171 =  1 + 85·2^1 ◗, ◖ 1367 = -1 + 171·2^3 ◗]
 1369 /4/ [◖ 1 ◗, ◖ 5 =  1 + 1·2^2 ◗, ◖ 85 =  5 + 5·2^4 ◗, ◖ 171 =  1 + 85·2^1 ◗, ◖ 1369 =  1 + 171·2^3 ◗]
 1371 /4/ [◖ 1 ◗, ◖ 5 =  1 + 1·2^2 ◗, ◖ 85 =  5 + 5·2^4 ◗, ◖ 685 =  5 + 85·2^3 ◗, ◖ 1371 =  1 + 685·2^1 ◗]
 1373 /4/ [◖ 1 ◗, ◖ 3 =  1 + 1·2^1 ◗, ◖ 49 =  1 + 3·2^4 ◗, ◖ 343 = -49 + 49·2^3 ◗, ◖ 1373 =  1 + 343·2^2 ◗]
 1375 /4/ [◖ 1 ◗, ◖ 3 =  1 + 1·2^1 ◗, ◖ 11 = -1 + 3·2^2 ◗, ◖ 43 = -1 + 11·2^2 ◗, ◖ 1375 = -1 + 43·2^5 ◗]
 1377 /3/ [◖ 1 ◗, ◖ 5 =  1 + 1·2^2 ◗, ◖ 81 =  1 + 5·2^4 ◗, ◖ 1377 =  81 + 81·2^4 ◗]
 1379 /4/ [◖ 1 ◗, ◖ 5 =  1 + 1·2^2 ◗, ◖ 85 =  5 + 5·2^4 ◗, ◖ 345 =  5 + 85·2^2 ◗, ◖ 1379 = -1 + 345·2^2 ◗]
 1381 /4/ [◖ 1 ◗, ◖ 5 =  1 + 1·2^2 ◗, ◖ 85 =  5 + 5·2^4 ◗, ◖ 345 =  5 + 85·2^2 ◗, ◖ 1381 =  1 + 345·2^2 ◗]
 1383 /4/ [◖ 1 ◗, ◖ 3 =  1 + 1·2^1 ◗, ◖ 11 = -1 + 3·2^2 ◗, ◖ 173 = -3 + 11·2^4 ◗, ◖ 1383 = -1 + 173·2^3 ◗]
 1385 /4/ [◖ 1 ◗, ◖ 3 =  1 + 1·2^1 ◗, ◖ 11 = -1 + 3·2^2 ◗, ◖ 173 = -3 + 11·2^4 ◗, ◖ 1385 =  1 + 173·2^3 ◗]
 1387 /4/ [◖ 1 ◗, ◖ 3 =  1 + 1·2^1 ◗, ◖ 11 = -1 + 3·2^2 ◗, ◖ 693 = -11 + 11·2^6 ◗, ◖ 1387 =  1 + 693·2^1 ◗]
 1389 /4/ [◖ 1 ◗, ◖ 5 =  1 + 1·2^2 ◗, ◖ 165 =  5 + 5·2^5 ◗, ◖ 347 = -165 + 1·2^9 ◗, ◖ 1389 =  1 + 347·2^2 ◗]
 1391 /4/ [◖ 1 ◗, ◖ 3 =  1 + 1·2^1 ◗, ◖ 11 = -1 + 3·2^2 ◗, ◖ 87 = -1 + 11·2^3 ◗, ◖ 1391 = -1 + 87·2^4 ◗]
 1393 /3/ [◖ 1 ◗, ◖ 15 = -1 + 1·2^4 ◗, ◖ 1905 = -15 + 15·2^7 ◗, ◖ 1393 =  1905 - 1·2^9 ◗]
 1395 /3/ [◖ 1 ◗, ◖ 3 =  1 + 1·2^1 ◗, ◖ 45 = -3 + 3·2^4 ◗, ◖ 1395 = -45 + 45·2^5 ◗]
 1397 /3/ [◖ 1 ◗, ◖ 3 =  1 + 1·2^1 ◗, ◖ 11 = -1 + 3·2^2 ◗, ◖ 1397 = -11 + 11·2^7 ◗]
 1399 /3/ [◖ 1 ◗, ◖ 9 =  1 + 1·2^3 ◗, ◖ 1143 = -9 + 9·2^7 ◗, ◖ 1399 =  1143 + 1·2^8 ◗]
 1401 /3/ [◖ 1 ◗, ◖ 7 = -1 + 1·2^3 ◗, ◖ 889 = -7 + 7·2^7 ◗, ◖ 1401 =  889 + 1·2^9 ◗]
 1403 /3/ [◖ 1 ◗, ◖ 5 =  1 + 1·2^2 ◗, ◖ 645 =  5 + 5·2^7 ◗, ◖ 1403 = -645 + 1·2^11 ◗]
 1405 /3/ [◖ 1 ◗, ◖ 3 =  1 + 1·2^1 ◗, ◖ 11 = -1 + 3·2^2 ◗, ◖ 1405 = -3 + 11·2^7 ◗]
 1407 /3/ [◖ 1 ◗, ◖ 3 =  1 + 1·2^1 ◗, ◖ 11 = -1 + 3·2^2 ◗, ◖ 1407 = -1 + 11·2^7 ◗]
".
Definition g11_22 : string := " 1409 /3/ [◖ 1 ◗, ◖ 3 =  1 + 1·2^1 ◗, ◖ 11 = -1 + 3·2^2 ◗, ◖ 1409 =  1 + 11·2^7 ◗]
 1411 /3/ [◖ 1 ◗, ◖ 3 =  1 + 1·2^1 ◗, ◖ 11 = -1 + 3·2^2 ◗, ◖ 1411 =  3 + 11·2^7 ◗]
 1413 /3/ [◖ 1 ◗, ◖ 5 =  1 + 1·2^2 ◗, ◖ 635 = -5 + 5·2^7 ◗, ◖ 1413 = -635 + 1·2^11 ◗]
 1415 /3/ [◖ 1 ◗, ◖ 7 = -1 + 1·2^3 ◗, ◖ 903 =  7 + 7·2^7 ◗, ◖ 1415 =  903 + 1·2^9 ◗]
 1417 /3/ [◖ 1 ◗, ◖ 9 =  1 + 1·2^3 ◗, ◖ 1161 =  9 + 9·2^7 ◗, ◖ 1417 =  1161 + 1·2^8 ◗]
 1419 /3/ [◖ 1 ◗, ◖ 3 =  1 + 1·2^1 ◗, ◖ 11 = -1 + 3·2^2 ◗, ◖ 1419 =  11 + 11·2^7 ◗]
 1421 /4/ [◖ 1 ◗, ◖ 3 =  1 + 1·2^1 ◗, ◖ 11 = -1 + 3·2^2 ◗, ◖ 355 =  3 + 11·2^5 ◗, ◖ 1421 =  1 + 355·2^2 ◗]
 1423 /3/ [◖ 1 ◗, ◖ 15 = -1 + 1·2^4 ◗, ◖ 1935 =  15 + 15·2^7 ◗, ◖ 1423 =  1935 - 1·2^9 ◗]
 1425 /3/ [◖ 1 ◗, ◖ 3 =  1 + 1·2^1 ◗, ◖ 95 = -1 + 3·2^5 ◗, ◖ 1425 = -95 + 95·2^4 ◗]
 1427 /4/ [◖ 1 ◗, ◖ 3 =  1 + 1·2^1 ◗, ◖ 45 = -3 + 3·2^4 ◗, ◖ 357 = -3 + 45·2^3 ◗, ◖ 1427 = -1 + 357·2^2 ◗]
 1429 /4/ [◖ 1 ◗, ◖ 3 =  1 + 1·2^1 ◗, ◖ 45 = -3 + 3·2^4 ◗, ◖ 357 = -3 + 45·2^3 ◗, ◖ 1429 =  1 + 357·2^2 ◗]
 1431 /3/ [◖ 1 ◗, ◖ 5 =  1 + 1·2^2 ◗, ◖ 159 = -1 + 5·2^5 ◗, ◖ 1431 =  159 + 159·2^3 ◗]
 1433 /4/ [◖ 1 ◗, ◖ 3 =  1 + 1·2^1 ◗, ◖ 45 = -3 + 3·2^4 ◗, ◖ 179 = -1 + 45·2^2 ◗, ◖ 1433 =  1 + 179·2^3 ◗]
 1435 /3/ [◖ 1 ◗, ◖ 9 =  1 + 1·2^3 ◗, ◖ 287 = -1 + 9·2^5 ◗, ◖ 1435 =  287 + 287·2^2 ◗]
 1437 /3/ [◖ 1 ◗, ◖ 3 =  1 + 1·2^1 ◗, ◖ 45 = -3 + 3·2^4 ◗, ◖ 1437 = -3 + 45·2^5 ◗]
 1439 /3/ [◖ 1 ◗, ◖ 3 =  1 + 1·2^1 ◗, ◖ 45 = -3 + 3·2^4 ◗, ◖ 1439 = -1 + 45·2^5 ◗]
 1441 /3/ [◖ 1 ◗, ◖ 3 =  1 + 1·2^1 ◗, ◖ 45 = -3 + 3·2^4 ◗, ◖ 1441 =  1 + 45·2^5 ◗]
 1443 /3/ [◖ 1 ◗, ◖ 3 =  1 + 1·2^1 ◗, ◖ 45 = -3 + 3·2^4 ◗, ◖ 1443 =  3 + 45·2^5 ◗]
 1445 /3/ [◖ 1 ◗, ◖ 9 =  1 + 1·2^3 ◗, ◖ 289 =  1 + 9·2^5 ◗, ◖ 1445 =  289 + 289·2^2 ◗]
 1447 /4/ [◖ 1 ◗, ◖ 3 =  1 + 1·2^1 ◗, ◖ 45 = -3 + 3·2^4 ◗, ◖ 181 =  1 + 45·2^2 ◗, ◖ 1447 = -1 + 181·2^3 ◗]
 1449 /3/ [◖ 1 ◗, ◖ 3 =  1 + 1·2^1 ◗, ◖ 23 = -1 + 3·2^3 ◗, ◖ 1449 = -23 + 23·2^6 ◗]
 1451 /4/ [◖ 1 ◗, ◖ 3 =  1 + 1·2^1 ◗, ◖ 45 = -3 + 3·2^4 ◗, ◖ 363 =  3 + 45·2^3 ◗, ◖ 1451 = -1 + 363·2^2 ◗]
 1453 /4/ [◖ 1 ◗, ◖ 3 =  1 + 1·2^1 ◗, ◖ 45 = -3 + 3·2^4 ◗, ◖ 363 =  3 + 45·2^3 ◗, ◖ 1453 =  1 + 363·2^2 ◗]
 1455 /3/ [◖ 1 ◗, ◖ 3 =  1 + 1·2^1 ◗, ◖ 97 =  1 + 3·2^5 ◗, ◖ 1455 = -97 + 97·2^4 ◗]
 1457 /3/ [◖ 1 ◗, ◖ 3 =  1 + 1·2^1 ◗, ◖ 47 = -1 + 3·2^4 ◗, ◖ 1457 = -47 + 47·2^5 ◗]
 1459 /4/ [◖ 1 ◗, ◖ 3 =  1 + 1·2^1 ◗, ◖ 23 = -1 + 3·2^3 ◗, ◖ 365 = -3 + 23·2^4 ◗, ◖ 1459 = -1 + 365·2^2 ◗]
 1461 /4/ [◖ 1 ◗, ◖ 3 =  1 + 1·2^1 ◗, ◖ 23 = -1 + 3·2^3 ◗, ◖ 365 = -3 + 23·2^4 ◗, ◖ 1461 =  1 + 365·2^2 ◗]
 1463 /3/ [◖ 1 ◗, ◖ 9 =  1 + 1·2^3 ◗, ◖ 585 =  9 + 9·2^6 ◗, ◖ 1463 = -585 + 1·2^11 ◗]
 1465 /3/ [◖ 1 ◗, ◖ 7 = -1 + 1·2^3 ◗, ◖ 441 = -7 + 7·2^6 ◗, ◖ 1465 =  441 + 1·2^10 ◗]
 1467 /4/ [◖ 1 ◗, ◖ 3 =  1 + 1·2^1 ◗, ◖ 23 = -1 + 3·2^3 ◗, ◖ 367 = -1 + 23·2^4 ◗, ◖ 1467 = -1 + 367·2^2 ◗]
 1469 /3/ [◖ 1 ◗, ◖ 3 =  1 + 1·2^1 ◗, ◖ 23 = -1 + 3·2^3 ◗, ◖ 1469 = -3 + 23·2^6 ◗]
 1471 /3/ [◖ 1 ◗, ◖ 3 =  1 + 1·2^1 ◗, ◖ 23 = -1 + 3·2^3 ◗, ◖ 1471 = -1 + 23·2^6 ◗]
".
Definition g11_23 : string := " 1473 /3/ [◖ 1 ◗, ◖ 3 =  1 + 1·2^1 ◗, ◖ 23 = -1 + 3·2^3 ◗, ◖ 1473 =  1 + 23·2^6 ◗]
 1475 /3/ [◖ 1 ◗, ◖ 3 =  1 + 1·2^1 ◗, ◖ 23 = -1 + 3·2^3 ◗, ◖ 1475 =  3 + 23·2^6 ◗]
 1477 /4/ [◖ 1 ◗, ◖ 3 =  1 + 1·2^1 ◗, ◖ 23 = -1 + 3·2^3 ◗, ◖ 369 =  1 + 23·2^4 ◗, ◖ 1477 =  1 + 369·2^2 ◗]
 1479 /3/ [◖ 1 ◗, ◖ 7 = -1 + 1·2^3 ◗, ◖ 455 =  7 + 7·2^6 ◗, ◖ 1479 =  455 + 1·2^10 ◗]
 1481 /3/ [◖ 1 ◗, ◖ 9 =  1 + 1·2^3 ◗, ◖ 567 = -9 + 9·2^6 ◗, ◖ 1481 = -567 + 1·2^11 ◗]
 1483 /4/ [◖ 1 ◗, ◖ 3 =  1 + 1·2^1 ◗, ◖ 93 = -3 + 3·2^5 ◗, ◖ 371 = -1 + 93·2^2 ◗, ◖ 1483 = -1 + 371·2^2 ◗]
 1485 /3/ [◖ 1 ◗, ◖ 3 =  1 + 1·2^1 ◗, ◖ 93 = -3 + 3·2^5 ◗, ◖ 1485 = -3 + 93·2^4 ◗]
 1487 /3/ [◖ 1 ◗, ◖ 3 =  1 + 1·2^1 ◗, ◖ 93 = -3 + 3·2^5 ◗, ◖ 1487 = -1 + 93·2^4 ◗]
 1489 /3/ [◖ 1 ◗, ◖ 3 =  1 + 1·2^1 ◗, ◖ 93 = -3 + 3·2^5 ◗, ◖ 1489 =  1 + 93·2^4 ◗]
 1491 /3/ [◖ 1 ◗, ◖ 3 =  1 + 1·2^1 ◗, ◖ 93 = -3 + 3·2^5 ◗, ◖ 1491 =  3 + 93·2^4 ◗]
 1493 /4/ [◖ 1 ◗, ◖ 3 =  1 + 1·2^1 ◗, ◖ 93 = -3 + 3·2^5 ◗, ◖ 373 =  1 + 93·2^2 ◗, ◖ 1493 =  1 + 373·2^2 ◗]
 1495 /3/ [◖ 1 ◗, ◖ 3 =  1 + 1·2^1 ◗, ◖ 23 = -1 + 3·2^3 ◗, ◖ 1495 =  23 + 23·2^6 ◗]
 1497 /4/ [◖ 1 ◗, ◖ 3 =  1 + 1·2^1 ◗, ◖ 47 = -1 + 3·2^4 ◗, ◖ 187 = -1 + 47·2^2 ◗, ◖ 1497 =  1 + 187·2^3 ◗]
 1499 /4/ [◖ 1 ◗, ◖ 3 =  1 + 1·2^1 ◗, ◖ 47 = -1 + 3·2^4 ◗, ◖ 375 = -1 + 47·2^3 ◗, ◖ 1499 = -1 + 375·2^2 ◗]
 1501 /3/ [◖ 1 ◗, ◖ 3 =  1 + 1·2^1 ◗, ◖ 47 = -1 + 3·2^4 ◗, ◖ 1501 = -3 + 47·2^5 ◗]
 1503 /3/ [◖ 1 ◗, ◖ 3 =  1 + 1·2^1 ◗, ◖ 47 = -1 + 3·2^4 ◗, ◖ 1503 = -1 + 47·2^5 ◗]
 1505 /3/ [◖ 1 ◗, ◖ 3 =  1 + 1·2^1 ◗, ◖ 47 = -1 + 3·2^4 ◗, ◖ 1505 =  1 + 47·2^5 ◗]
 1507 /3/ [◖ 1 ◗, ◖ 3 =  1 + 1·2^1 ◗, ◖ 47 = -1 + 3·2^4 ◗, ◖ 1507 =  3 + 47·2^5 ◗]
 1509 /3/ [◖ 1 ◗, ◖ 3 =  1 + 1·2^1 ◗, ◖ 189 = -3 + 3·2^6 ◗, ◖ 1509 = -3 + 189·2^3 ◗]
 1511 /3/ [◖ 1 ◗, ◖ 3 =  1 + 1·2^1 ◗, ◖ 189 = -3 + 3·2^6 ◗, ◖ 1511 = -1 + 189·2^3 ◗]
 1513 /3/ [◖ 1 ◗, ◖ 3 =  1 + 1·2^1 ◗, ◖ 189 = -3 + 3·2^6 ◗, ◖ 1513 =  1 + 189·2^3 ◗]
 1515 /3/ [◖ 1 ◗, ◖ 3 =  1 + 1·2^1 ◗, ◖ 189 = -3 + 3·2^6 ◗, ◖ 1515 =  3 + 189·2^3 ◗]
 1517 /3/ [◖ 1 ◗, ◖ 3 =  1 + 1·2^1 ◗, ◖ 95 = -1 + 3·2^5 ◗, ◖ 1517 = -3 + 95·2^4 ◗]
 1519 /3/ [◖ 1 ◗, ◖ 3 =  1 + 1·2^1 ◗, ◖ 95 = -1 + 3·2^5 ◗, ◖ 1519 = -1 + 95·2^4 ◗]
 1521 /3/ [◖ 1 ◗, ◖ 3 =  1 + 1·2^1 ◗, ◖ 95 = -1 + 3·2^5 ◗, ◖ 1521 =  1 + 95·2^4 ◗]
 1523 /3/ [◖ 1 ◗, ◖ 3 =  1 + 1·2^1 ◗, ◖ 381 = -3 + 3·2^7 ◗, ◖ 1523 = -1 + 381·2^2 ◗]
 1525 /3/ [◖ 1 ◗, ◖ 3 =  1 + 1·2^1 ◗, ◖ 381 = -3 + 3·2^7 ◗, ◖ 1525 =  1 + 381·2^2 ◗]
 1527 /3/ [◖ 1 ◗, ◖ 3 =  1 + 1·2^1 ◗, ◖ 191 = -1 + 3·2^6 ◗, ◖ 1527 = -1 + 191·2^3 ◗]
 1529 /3/ [◖ 1 ◗, ◖ 3 =  1 + 1·2^1 ◗, ◖ 191 = -1 + 3·2^6 ◗, ◖ 1529 =  1 + 191·2^3 ◗]
 1531 /3/ [◖ 1 ◗, ◖ 3 =  1 + 1·2^1 ◗, ◖ 383 = -1 + 3·2^7 ◗, ◖ 1531 = -1 + 383·2^2 ◗]
 1533 /2/ [◖ 1 ◗, ◖ 3 =  1 + 1·2^1 ◗, ◖ 1533 = -3 + 3·2^9 ◗]
 1535 /2/ [◖ 1 ◗, ◖ 3 =  1 + 1·2^1 ◗, ◖ 1535 = -1 + 3·2^9 ◗]
".
Definition g11_24 : string := " 1537 /2/ [◖ 1 ◗, ◖ 3 =  1 + 1·2^1 ◗, ◖ 1537 =  1 + 3·2^9 ◗]
 1539 /2/ [◖ 1 ◗, ◖ 3 =  1 + 1·2^1 ◗, ◖ 1539 =  3 + 3·2^9 ◗]
 1541 /3/ [◖ 1 ◗, ◖ 3 =  1 + 1·2^1 ◗, ◖ 385 =  1 + 3·2^7 ◗, ◖ 1541 =  1 + 385·2^2 ◗]
 1543 /3/ [◖ 1 ◗, ◖ 3 =  1 + 1·2^1 ◗, ◖ 193 =  1 + 3·2^6 ◗, ◖ 1543 = -1 + 193·2^3 ◗]
 1545 /3/ [◖ 1 ◗, ◖ 3 =  1 + 1·2^1 ◗, ◖ 193 =  1 + 3·2^6 ◗, ◖ 1545 =  1 + 193·2^3 ◗]
 1547 /3/ [◖ 1 ◗, ◖ 3 =  1 + 1·2^1 ◗, ◖ 387 =  3 + 3·2^7 ◗, ◖ 1547 = -1 + 387·2^2 ◗]
 1549 /3/ [◖ 1 ◗, ◖ 3 =  1 + 1·2^1 ◗, ◖ 387 =  3 + 3·2^7 ◗, ◖ 1549 =  1 + 387·2^2 ◗]
 1551 /3/ [◖ 1 ◗, ◖ 3 =  1 + 1·2^1 ◗, ◖ 97 =  1 + 3·2^5 ◗, ◖ 1551 = -1 + 97·2^4 ◗]
 1553 /3/ [◖ 1 ◗, ◖ 3 =  1 + 1·2^1 ◗, ◖ 97 =  1 + 3·2^5 ◗, ◖ 1553 =  1 + 97·2^4 ◗]
 1555 /3/ [◖ 1 ◗, ◖ 3 =  1 + 1·2^1 ◗, ◖ 97 =  1 + 3·2^5 ◗, ◖ 1555 =  3 + 97·2^4 ◗]
 1557 /3/ [◖ 1 ◗, ◖ 3 =  1 + 1·2^1 ◗, ◖ 195 =  3 + 3·2^6 ◗, ◖ 1557 = -3 + 195·2^3 ◗]
 1559 /3/ [◖ 1 ◗, ◖ 3 =  1 + 1·2^1 ◗, ◖ 195 =  3 + 3·2^6 ◗, ◖ 1559 = -1 + 195·2^3 ◗]
 1561 /3/ [◖ 1 ◗, ◖ 3 =  1 + 1·2^1 ◗, ◖ 195 =  3 + 3·2^6 ◗, ◖ 1561 =  1 + 195·2^3 ◗]
 1563 /3/ [◖ 1 ◗, ◖ 3 =  1 + 1·2^1 ◗, ◖ 195 =  3 + 3·2^6 ◗, ◖ 1563 =  3 + 195·2^3 ◗]
 1565 /3/ [◖ 1 ◗, ◖ 3 =  1 + 1·2^1 ◗, ◖ 49 =  1 + 3·2^4 ◗, ◖ 1565 = -3 + 49·2^5 ◗]
 1567 /3/ [◖ 1 ◗, ◖ 3 =  1 + 1·2^1 ◗, ◖ 49 =  1 + 3·2^4 ◗, ◖ 1567 = -1 + 49·2^5 ◗]
 1569 /3/ [◖ 1 ◗, ◖ 3 =  1 + 1·2^1 ◗, ◖ 49 =  1 + 3·2^4 ◗, ◖ 1569 =  1 + 49·2^5 ◗]
 1571 /3/ [◖ 1 ◗, ◖ 3 =  1 + 1·2^1 ◗, ◖ 49 =  1 + 3·2^4 ◗, ◖ 1571 =  3 + 49·2^5 ◗]
 1573 /4/ [◖ 1 ◗, ◖ 3 =  1 + 1·2^1 ◗, ◖ 49 =  1 + 3·2^4 ◗, ◖ 393 =  1 + 49·2^3 ◗, ◖ 1573 =  1 + 393·2^2 ◗]
 1575 /3/ [◖ 1 ◗, ◖ 3 =  1 + 1·2^1 ◗, ◖ 25 =  1 + 3·2^3 ◗, ◖ 1575 = -25 + 25·2^6 ◗]
 1577 /4/ [◖ 1 ◗, ◖ 3 =  1 + 1·2^1 ◗, ◖ 49 =  1 + 3·2^4 ◗, ◖ 197 =  1 + 49·2^2 ◗, ◖ 1577 =  1 + 197·2^3 ◗]
 1579 /4/ [◖ 1 ◗, ◖ 3 =  1 + 1·2^1 ◗, ◖ 99 =  3 + 3·2^5 ◗, ◖ 395 = -1 + 99·2^2 ◗, ◖ 1579 = -1 + 395·2^2 ◗]
 1581 /3/ [◖ 1 ◗, ◖ 3 =  1 + 1·2^1 ◗, ◖ 99 =  3 + 3·2^5 ◗, ◖ 1581 = -3 + 99·2^4 ◗]
 1583 /3/ [◖ 1 ◗, ◖ 3 =  1 + 1·2^1 ◗, ◖ 99 =  3 + 3·2^5 ◗, ◖ 1583 = -1 + 99·2^4 ◗]
 1585 /3/ [◖ 1 ◗, ◖ 3 =  1 + 1·2^1 ◗, ◖ 99 =  3 + 3·2^5 ◗, ◖ 1585 =  1 + 99·2^4 ◗]
 1587 /3/ [◖ 1 ◗, ◖ 3 =  1 + 1·2^1 ◗, ◖ 99 =  3 + 3·2^5 ◗, ◖ 1587 =  3 + 99·2^4 ◗]
 1589 /4/ [◖ 1 ◗, ◖ 3 =  1 + 1·2^1 ◗, ◖ 99 =  3 + 3·2^5 ◗, ◖ 397 =  1 + 99·2^2 ◗, ◖ 1589 =  1 + 397·2^2 ◗]
 1591 /3/ [◖ 1 ◗, ◖ 9 =  1 + 1·2^3 ◗, ◖ 567 = -9 + 9·2^6 ◗, ◖ 1591 =  567 + 1·2^10 ◗]
 1593 /3/ [◖ 1 ◗, ◖ 7 = -1 + 1·2^3 ◗, ◖ 455 =  7 + 7·2^6 ◗, ◖ 1593 = -455 + 1·2^11 ◗]
 1595 /3/ [◖ 1 ◗, ◖ 5 =  1 + 1·2^2 ◗, ◖ 319 = -1 + 5·2^6 ◗, ◖ 1595 =  319 + 319·2^2 ◗]
 1597 /3/ [◖ 1 ◗, ◖ 3 =  1 + 1·2^1 ◗, ◖ 25 =  1 + 3·2^3 ◗, ◖ 1597 = -3 + 25·2^6 ◗]
 1599 /3/ [◖ 1 ◗, ◖ 3 =  1 + 1·2^1 ◗, ◖ 25 =  1 + 3·2^3 ◗, ◖ 1599 = -1 + 25·2^6 ◗]
".
Definition g11_25 : string := " 1601 /3/ [◖ 1 ◗, ◖ 3 =  1 + 1·2^1 ◗, ◖ 25 =  1 + 3·2^3 ◗, ◖ 1601 =  1 + 25·2^6 ◗]
 1603 /3/ [◖ 1 ◗, ◖ 3 =  1 + 1·2^1 ◗, ◖ 25 =  1 + 3·2^3 ◗, ◖ 1603 =  3 + 25·2^6 ◗]
 1605 /3/ [◖ 1 ◗, ◖ 5 =  1 + 1·2^2 ◗, ◖ 321 =  1 + 5·2^6 ◗, ◖ 1605 =  321 + 321·2^2 ◗]
 1607 /3/ [◖ 1 ◗, ◖ 7 = -1 + 1·2^3 ◗, ◖ 441 = -7 + 7·2^6 ◗, ◖ 1607 = -441 + 1·2^11 ◗]
 1609 /3/ [◖ 1 ◗, ◖ 9 =  1 + 1·2^3 ◗, ◖ 585 =  9 + 9·2^6 ◗, ◖ 1609 =  585 + 1·2^10 ◗]
 1611 /4/ [◖ 1 ◗, ◖ 3 =  1 + 1·2^1 ◗, ◖ 25 =  1 + 3·2^3 ◗, ◖ 403 =  3 + 25·2^4 ◗, ◖ 1611 = -1 + 403·2^2 ◗]
 1613 /4/ [◖ 1 ◗, ◖ 3 =  1 + 1·2^1 ◗, ◖ 25 =  1 + 3·2^3 ◗, ◖ 403 =  3 + 25·2^4 ◗, ◖ 1613 =  1 + 403·2^2 ◗]
 1615 /3/ [◖ 1 ◗, ◖ 3 =  1 + 1·2^1 ◗, ◖ 95 = -1 + 3·2^5 ◗, ◖ 1615 =  95 + 95·2^4 ◗]
 1617 /3/ [◖ 1 ◗, ◖ 3 =  1 + 1·2^1 ◗, ◖ 49 =  1 + 3·2^4 ◗, ◖ 1617 =  49 + 49·2^5 ◗]
 1619 /4/ [◖ 1 ◗, ◖ 3 =  1 + 1·2^1 ◗, ◖ 51 =  3 + 3·2^4 ◗, ◖ 405 = -3 + 51·2^3 ◗, ◖ 1619 = -1 + 405·2^2 ◗]
 1621 /4/ [◖ 1 ◗, ◖ 3 =  1 + 1·2^1 ◗, ◖ 51 =  3 + 3·2^4 ◗, ◖ 405 = -3 + 51·2^3 ◗, ◖ 1621 =  1 + 405·2^2 ◗]
 1623 /4/ [◖ 1 ◗, ◖ 3 =  1 + 1·2^1 ◗, ◖ 51 =  3 + 3·2^4 ◗, ◖ 203 = -1 + 51·2^2 ◗, ◖ 1623 = -1 + 203·2^3 ◗]
 1625 /3/ [◖ 1 ◗, ◖ 3 =  1 + 1·2^1 ◗, ◖ 25 =  1 + 3·2^3 ◗, ◖ 1625 =  25 + 25·2^6 ◗]
 1627 /4/ [◖ 1 ◗, ◖ 3 =  1 + 1·2^1 ◗, ◖ 51 =  3 + 3·2^4 ◗, ◖ 407 = -1 + 51·2^3 ◗, ◖ 1627 = -1 + 407·2^2 ◗]
 1629 /3/ [◖ 1 ◗, ◖ 3 =  1 + 1·2^1 ◗, ◖ 51 =  3 + 3·2^4 ◗, ◖ 1629 = -3 + 51·2^5 ◗]
 1631 /3/ [◖ 1 ◗, ◖ 3 =  1 + 1·2^1 ◗, ◖ 51 =  3 + 3·2^4 ◗, ◖ 1631 = -1 + 51·2^5 ◗]
 1633 /3/ [◖ 1 ◗, ◖ 3 =  1 + 1·2^1 ◗, ◖ 51 =  3 + 3·2^4 ◗, ◖ 1633 =  1 + 51·2^5 ◗]
 1635 /3/ [◖ 1 ◗, ◖ 3 =  1 + 1·2^1 ◗, ◖ 51 =  3 + 3·2^4 ◗, ◖ 1635 =  3 + 51·2^5 ◗]
 1637 /4/ [◖ 1 ◗, ◖ 3 =  1 + 1·2^1 ◗, ◖ 51 =  3 + 3·2^4 ◗, ◖ 409 =  1 + 51·2^3 ◗, ◖ 1637 =  1 + 409·2^2 ◗]
 1639 /4/ [◖ 1 ◗, ◖ 3 =  1 + 1·2^1 ◗, ◖ 51 =  3 + 3·2^4 ◗, ◖ 205 =  1 + 51·2^2 ◗, ◖ 1639 = -1 + 205·2^3 ◗]
 1641 /4/ [◖ 1 ◗, ◖ 3 =  1 + 1·2^1 ◗, ◖ 51 =  3 + 3·2^4 ◗, ◖ 205 =  1 + 51·2^2 ◗, ◖ 1641 =  1 + 205·2^3 ◗]
 1643 /4/ [◖ 1 ◗, ◖ 3 =  1 + 1·2^1 ◗, ◖ 51 =  3 + 3·2^4 ◗, ◖ 411 =  3 + 51·2^3 ◗, ◖ 1643 = -1 + 411·2^2 ◗]
 1645 /4/ [◖ 1 ◗, ◖ 3 =  1 + 1·2^1 ◗, ◖ 51 =  3 + 3·2^4 ◗, ◖ 411 =  3 + 51·2^3 ◗, ◖ 1645 =  1 + 411·2^2 ◗]
 1647 /3/ [◖ 1 ◗, ◖ 17 =  1 + 1·2^4 ◗, ◖ 2159 = -17 + 17·2^7 ◗, ◖ 1647 =  2159 - 1·2^9 ◗]
 1649 /3/ [◖ 1 ◗, ◖ 3 =  1 + 1·2^1 ◗, ◖ 97 =  1 + 3·2^5 ◗, ◖ 1649 =  97 + 97·2^4 ◗]
 1651 /3/ [◖ 1 ◗, ◖ 3 =  1 + 1·2^1 ◗, ◖ 13 =  1 + 3·2^2 ◗, ◖ 1651 = -13 + 13·2^7 ◗]
 1653 /4/ [◖ 1 ◗, ◖ 3 =  1 + 1·2^1 ◗, ◖ 13 =  1 + 3·2^2 ◗, ◖ 413 = -3 + 13·2^5 ◗, ◖ 1653 =  1 + 413·2^2 ◗]
 1655 /3/ [◖ 1 ◗, ◖ 9 =  1 + 1·2^3 ◗, ◖ 1143 = -9 + 9·2^7 ◗, ◖ 1655 =  1143 + 1·2^9 ◗]
 1657 /3/ [◖ 1 ◗, ◖ 7 = -1 + 1·2^3 ◗, ◖ 1785 = -7 + 7·2^8 ◗, ◖ 1657 =  1785 - 1·2^7 ◗]
 1659 /3/ [◖ 1 ◗, ◖ 5 =  1 + 1·2^2 ◗, ◖ 635 = -5 + 5·2^7 ◗, ◖ 1659 =  635 + 1·2^10 ◗]
 1661 /3/ [◖ 1 ◗, ◖ 3 =  1 + 1·2^1 ◗, ◖ 13 =  1 + 3·2^2 ◗, ◖ 1661 = -3 + 13·2^7 ◗]
 1663 /3/ [◖ 1 ◗, ◖ 3 =  1 + 1·2^1 ◗, ◖ 13 =  1 + 3·2^2 ◗, ◖ 1663 = -1 + 13·2^7 ◗]
".
Definition g11_26 : string := " 1665 /3/ [◖ 1 ◗, ◖ 3 =  1 + 1·2^1 ◗, ◖ 13 =  1 + 3·2^2 ◗, ◖ 1665 =  1 + 13·2^7 ◗]
 1667 /3/ [◖ 1 ◗, ◖ 3 =  1 + 1·2^1 ◗, ◖ 13 =  1 + 3·2^2 ◗, ◖ 1667 =  3 + 13·2^7 ◗]
 1669 /3/ [◖ 1 ◗, ◖ 5 =  1 + 1·2^2 ◗, ◖ 645 =  5 + 5·2^7 ◗, ◖ 1669 =  645 + 1·2^10 ◗]
 1671 /3/ [◖ 1 ◗, ◖ 7 = -1 + 1·2^3 ◗, ◖ 1799 =  7 + 7·2^8 ◗, ◖ 1671 =  1799 - 1·2^7 ◗]
 1673 /3/ [◖ 1 ◗, ◖ 7 = -1 + 1·2^3 ◗, ◖ 105 = -7 + 7·2^4 ◗, ◖ 1673 = -7 + 105·2^4 ◗]
 1675 /4/ [◖ 1 ◗, ◖ 7 = -1 + 1·2^3 ◗, ◖ 105 = -7 + 7·2^4 ◗, ◖ 419 = -1 + 105·2^2 ◗, ◖ 1675 = -1 + 419·2^2 ◗]
 1677 /3/ [◖ 1 ◗, ◖ 3 =  1 + 1·2^1 ◗, ◖ 13 =  1 + 3·2^2 ◗, ◖ 1677 =  13 + 13·2^7 ◗]
 1679 /3/ [◖ 1 ◗, ◖ 7 = -1 + 1·2^3 ◗, ◖ 105 = -7 + 7·2^4 ◗, ◖ 1679 = -1 + 105·2^4 ◗]
 1681 /3/ [◖ 1 ◗, ◖ 7 = -1 + 1·2^3 ◗, ◖ 105 = -7 + 7·2^4 ◗, ◖ 1681 =  1 + 105·2^4 ◗]
 1683 /3/ [◖ 1 ◗, ◖ 3 =  1 + 1·2^1 ◗, ◖ 51 =  3 + 3·2^4 ◗, ◖ 1683 =  51 + 51·2^5 ◗]
 1685 /4/ [◖ 1 ◗, ◖ 7 = -1 + 1·2^3 ◗, ◖ 105 = -7 + 7·2^4 ◗, ◖ 421 =  1 + 105·2^2 ◗, ◖ 1685 =  1 + 421·2^2 ◗]
 1687 /3/ [◖ 1 ◗, ◖ 7 = -1 + 1·2^3 ◗, ◖ 105 = -7 + 7·2^4 ◗, ◖ 1687 =  7 + 105·2^4 ◗]
 1689 /4/ [◖ 1 ◗, ◖ 7 = -1 + 1·2^3 ◗, ◖ 105 = -7 + 7·2^4 ◗, ◖ 211 =  1 + 105·2^1 ◗, ◖ 1689 =  1 + 211·2^3 ◗]
 1691 /4/ [◖ 1 ◗, ◖ 3 =  1 + 1·2^1 ◗, ◖ 13 =  1 + 3·2^2 ◗, ◖ 845 =  13 + 13·2^6 ◗, ◖ 1691 =  1 + 845·2^1 ◗]
 1693 /4/ [◖ 1 ◗, ◖ 7 = -1 + 1·2^3 ◗, ◖ 105 = -7 + 7·2^4 ◗, ◖ 847 =  7 + 105·2^3 ◗, ◖ 1693 = -1 + 847·2^1 ◗]
 1695 /3/ [◖ 1 ◗, ◖ 7 = -1 + 1·2^3 ◗, ◖ 113 =  1 + 7·2^4 ◗, ◖ 1695 = -113 + 113·2^4 ◗]
 1697 /3/ [◖ 1 ◗, ◖ 31 = -1 + 1·2^5 ◗, ◖ 1953 = -31 + 31·2^6 ◗, ◖ 1697 =  1953 - 1·2^8 ◗]
 1699 /4/ [◖ 1 ◗, ◖ 7 = -1 + 1·2^3 ◗, ◖ 27 = -1 + 7·2^2 ◗, ◖ 425 = -7 + 27·2^4 ◗, ◖ 1699 = -1 + 425·2^2 ◗]
 1701 /3/ [◖ 1 ◗, ◖ 7 = -1 + 1·2^3 ◗, ◖ 27 = -1 + 7·2^2 ◗, ◖ 1701 = -27 + 27·2^6 ◗]
 1703 /4/ [◖ 1 ◗, ◖ 7 = -1 + 1·2^3 ◗, ◖ 55 = -1 + 7·2^3 ◗, ◖ 213 = -7 + 55·2^2 ◗, ◖ 1703 = -1 + 213·2^3 ◗]
 1705 /3/ [◖ 1 ◗, ◖ 7 = -1 + 1·2^3 ◗, ◖ 55 = -1 + 7·2^3 ◗, ◖ 1705 = -55 + 55·2^5 ◗]
 1707 /4/ [◖ 1 ◗, ◖ 7 = -1 + 1·2^3 ◗, ◖ 105 = -7 + 7·2^4 ◗, ◖ 427 =  7 + 105·2^2 ◗, ◖ 1707 = -1 + 427·2^2 ◗]
 1709 /4/ [◖ 1 ◗, ◖ 7 = -1 + 1·2^3 ◗, ◖ 105 = -7 + 7·2^4 ◗, ◖ 427 =  7 + 105·2^2 ◗, ◖ 1709 =  1 + 427·2^2 ◗]
 1711 /4/ [◖ 1 ◗, ◖ 7 = -1 + 1·2^3 ◗, ◖ 27 = -1 + 7·2^2 ◗, ◖ 107 = -1 + 27·2^2 ◗, ◖ 1711 = -1 + 107·2^4 ◗]
 1713 /4/ [◖ 1 ◗, ◖ 7 = -1 + 1·2^3 ◗, ◖ 27 = -1 + 7·2^2 ◗, ◖ 107 = -1 + 27·2^2 ◗, ◖ 1713 =  1 + 107·2^4 ◗]
 1715 /4/ [◖ 1 ◗, ◖ 7 = -1 + 1·2^3 ◗, ◖ 27 = -1 + 7·2^2 ◗, ◖ 857 = -7 + 27·2^5 ◗, ◖ 1715 =  1 + 857·2^1 ◗]
 1717 /4/ [◖ 1 ◗, ◖ 3 =  1 + 1·2^1 ◗, ◖ 13 =  1 + 3·2^2 ◗, ◖ 429 =  13 + 13·2^5 ◗, ◖ 1717 =  1 + 429·2^2 ◗]
 1719 /3/ [◖ 1 ◗, ◖ 3 =  1 + 1·2^1 ◗, ◖ 191 = -1 + 3·2^6 ◗, ◖ 1719 =  191 + 191·2^3 ◗]
 1721 /3/ [◖ 1 ◗, ◖ 7 = -1 + 1·2^3 ◗, ◖ 27 = -1 + 7·2^2 ◗, ◖ 1721 = -7 + 27·2^6 ◗]
 1723 /3/ [◖ 1 ◗, ◖ 5 =  1 + 1·2^2 ◗, ◖ 325 =  5 + 5·2^6 ◗, ◖ 1723 = -325 + 1·2^11 ◗]
 1725 /3/ [◖ 1 ◗, ◖ 9 =  1 + 1·2^3 ◗, ◖ 575 = -1 + 9·2^6 ◗, ◖ 1725 =  575 + 575·2^1 ◗]
 1727 /3/ [◖ 1 ◗, ◖ 7 = -1 + 1·2^3 ◗, ◖ 27 = -1 + 7·2^2 ◗, ◖ 1727 = -1 + 27·2^6 ◗]
".
Definition g11_27 : string := " 1729 /3/ [◖ 1 ◗, ◖ 7 = -1 + 1·2^3 ◗, ◖ 27 = -1 + 7·2^2 ◗, ◖ 1729 =  1 + 27·2^6 ◗]
 1731 /3/ [◖ 1 ◗, ◖ 9 =  1 + 1·2^3 ◗, ◖ 577 =  1 + 9·2^6 ◗, ◖ 1731 =  577 + 577·2^1 ◗]
 1733 /3/ [◖ 1 ◗, ◖ 5 =  1 + 1·2^2 ◗, ◖ 315 = -5 + 5·2^6 ◗, ◖ 1733 = -315 + 1·2^11 ◗]
 1735 /3/ [◖ 1 ◗, ◖ 7 = -1 + 1·2^3 ◗, ◖ 217 = -7 + 7·2^5 ◗, ◖ 1735 = -1 + 217·2^3 ◗]
 1737 /3/ [◖ 1 ◗, ◖ 7 = -1 + 1·2^3 ◗, ◖ 217 = -7 + 7·2^5 ◗, ◖ 1737 =  1 + 217·2^3 ◗]
 1739 /4/ [◖ 1 ◗, ◖ 7 = -1 + 1·2^3 ◗, ◖ 217 = -7 + 7·2^5 ◗, ◖ 435 =  1 + 217·2^1 ◗, ◖ 1739 = -1 + 435·2^2 ◗]
 1741 /4/ [◖ 1 ◗, ◖ 7 = -1 + 1·2^3 ◗, ◖ 217 = -7 + 7·2^5 ◗, ◖ 435 =  1 + 217·2^1 ◗, ◖ 1741 =  1 + 435·2^2 ◗]
 1743 /3/ [◖ 1 ◗, ◖ 7 = -1 + 1·2^3 ◗, ◖ 217 = -7 + 7·2^5 ◗, ◖ 1743 =  7 + 217·2^3 ◗]
 1745 /4/ [◖ 1 ◗, ◖ 7 = -1 + 1·2^3 ◗, ◖ 27 = -1 + 7·2^2 ◗, ◖ 109 =  1 + 27·2^2 ◗, ◖ 1745 =  1 + 109·2^4 ◗]
 1747 /4/ [◖ 1 ◗, ◖ 7 = -1 + 1·2^3 ◗, ◖ 55 = -1 + 7·2^3 ◗, ◖ 873 = -7 + 55·2^4 ◗, ◖ 1747 =  1 + 873·2^1 ◗]
 1749 /4/ [◖ 1 ◗, ◖ 7 = -1 + 1·2^3 ◗, ◖ 111 = -1 + 7·2^4 ◗, ◖ 437 = -7 + 111·2^2 ◗, ◖ 1749 =  1 + 437·2^2 ◗]
 1751 /3/ [◖ 1 ◗, ◖ 9 =  1 + 1·2^3 ◗, ◖ 297 =  9 + 9·2^5 ◗, ◖ 1751 = -297 + 1·2^11 ◗]
 1753 /3/ [◖ 1 ◗, ◖ 7 = -1 + 1·2^3 ◗, ◖ 55 = -1 + 7·2^3 ◗, ◖ 1753 = -7 + 55·2^5 ◗]
 1755 /3/ [◖ 1 ◗, ◖ 7 = -1 + 1·2^3 ◗, ◖ 27 = -1 + 7·2^2 ◗, ◖ 1755 =  27 + 27·2^6 ◗]
 1757 /3/ [◖ 1 ◗, ◖ 7 = -1 + 1·2^3 ◗, ◖ 441 = -7 + 7·2^6 ◗, ◖ 1757 = -7 + 441·2^2 ◗]
 1759 /3/ [◖ 1 ◗, ◖ 7 = -1 + 1·2^3 ◗, ◖ 55 = -1 + 7·2^3 ◗, ◖ 1759 = -1 + 55·2^5 ◗]
 1761 /3/ [◖ 1 ◗, ◖ 7 = -1 + 1·2^3 ◗, ◖ 55 = -1 + 7·2^3 ◗, ◖ 1761 =  1 + 55·2^5 ◗]
 1763 /3/ [◖ 1 ◗, ◖ 7 = -1 + 1·2^3 ◗, ◖ 441 = -7 + 7·2^6 ◗, ◖ 1763 = -1 + 441·2^2 ◗]
 1765 /3/ [◖ 1 ◗, ◖ 7 = -1 + 1·2^3 ◗, ◖ 441 = -7 + 7·2^6 ◗, ◖ 1765 =  1 + 441·2^2 ◗]
 1767 /3/ [◖ 1 ◗, ◖ 7 = -1 + 1·2^3 ◗, ◖ 55 = -1 + 7·2^3 ◗, ◖ 1767 =  7 + 55·2^5 ◗]
 1769 /3/ [◖ 1 ◗, ◖ 7 = -1 + 1·2^3 ◗, ◖ 111 = -1 + 7·2^4 ◗, ◖ 1769 = -7 + 111·2^4 ◗]
 1771 /3/ [◖ 1 ◗, ◖ 7 = -1 + 1·2^3 ◗, ◖ 441 = -7 + 7·2^6 ◗, ◖ 1771 =  7 + 441·2^2 ◗]
 1773 /4/ [◖ 1 ◗, ◖ 7 = -1 + 1·2^3 ◗, ◖ 111 = -1 + 7·2^4 ◗, ◖ 443 = -1 + 111·2^2 ◗, ◖ 1773 =  1 + 443·2^2 ◗]
 1775 /3/ [◖ 1 ◗, ◖ 7 = -1 + 1·2^3 ◗, ◖ 111 = -1 + 7·2^4 ◗, ◖ 1775 = -1 + 111·2^4 ◗]
 1777 /3/ [◖ 1 ◗, ◖ 7 = -1 + 1·2^3 ◗, ◖ 111 = -1 + 7·2^4 ◗, ◖ 1777 =  1 + 111·2^4 ◗]
 1779 /3/ [◖ 1 ◗, ◖ 7 = -1 + 1·2^3 ◗, ◖ 889 = -7 + 7·2^7 ◗, ◖ 1779 =  1 + 889·2^1 ◗]
 1781 /3/ [◖ 1 ◗, ◖ 7 = -1 + 1·2^3 ◗, ◖ 447 = -1 + 7·2^6 ◗, ◖ 1781 = -7 + 447·2^2 ◗]
 1783 /3/ [◖ 1 ◗, ◖ 7 = -1 + 1·2^3 ◗, ◖ 223 = -1 + 7·2^5 ◗, ◖ 1783 = -1 + 223·2^3 ◗]
 1785 /2/ [◖ 1 ◗, ◖ 7 = -1 + 1·2^3 ◗, ◖ 1785 = -7 + 7·2^8 ◗]
 1787 /3/ [◖ 1 ◗, ◖ 7 = -1 + 1·2^3 ◗, ◖ 447 = -1 + 7·2^6 ◗, ◖ 1787 = -1 + 447·2^2 ◗]
 1789 /3/ [◖ 1 ◗, ◖ 7 = -1 + 1·2^3 ◗, ◖ 447 = -1 + 7·2^6 ◗, ◖ 1789 =  1 + 447·2^2 ◗]
 1791 /2/ [◖ 1 ◗, ◖ 7 = -1 + 1·2^3 ◗, ◖ 1791 = -1 + 7·2^8 ◗]
".
Definition g11_28 : string := " 1793 /2/ [◖ 1 ◗, ◖ 7 = -1 + 1·2^3 ◗, ◖ 1793 =  1 + 7·2^8 ◗]
 1795 /3/ [◖ 1 ◗, ◖ 7 = -1 + 1·2^3 ◗, ◖ 449 =  1 + 7·2^6 ◗, ◖ 1795 = -1 + 449·2^2 ◗]
 1797 /3/ [◖ 1 ◗, ◖ 7 = -1 + 1·2^3 ◗, ◖ 449 =  1 + 7·2^6 ◗, ◖ 1797 =  1 + 449·2^2 ◗]
 1799 /2/ [◖ 1 ◗, ◖ 7 = -1 + 1·2^3 ◗, ◖ 1799 =  7 + 7·2^8 ◗]
 1801 /3/ [◖ 1 ◗, ◖ 7 = -1 + 1·2^3 ◗, ◖ 225 =  1 + 7·2^5 ◗, ◖ 1801 =  1 + 225·2^3 ◗]
 1803 /3/ [◖ 1 ◗, ◖ 7 = -1 + 1·2^3 ◗, ◖ 449 =  1 + 7·2^6 ◗, ◖ 1803 =  7 + 449·2^2 ◗]
 1805 /3/ [◖ 1 ◗, ◖ 7 = -1 + 1·2^3 ◗, ◖ 903 =  7 + 7·2^7 ◗, ◖ 1805 = -1 + 903·2^1 ◗]
 1807 /3/ [◖ 1 ◗, ◖ 7 = -1 + 1·2^3 ◗, ◖ 113 =  1 + 7·2^4 ◗, ◖ 1807 = -1 + 113·2^4 ◗]
 1809 /3/ [◖ 1 ◗, ◖ 7 = -1 + 1·2^3 ◗, ◖ 113 =  1 + 7·2^4 ◗, ◖ 1809 =  1 + 113·2^4 ◗]
 1811 /4/ [◖ 1 ◗, ◖ 7 = -1 + 1·2^3 ◗, ◖ 113 =  1 + 7·2^4 ◗, ◖ 453 =  1 + 113·2^2 ◗, ◖ 1811 = -1 + 453·2^2 ◗]
 1813 /3/ [◖ 1 ◗, ◖ 7 = -1 + 1·2^3 ◗, ◖ 455 =  7 + 7·2^6 ◗, ◖ 1813 = -7 + 455·2^2 ◗]
 1815 /3/ [◖ 1 ◗, ◖ 7 = -1 + 1·2^3 ◗, ◖ 113 =  1 + 7·2^4 ◗, ◖ 1815 =  7 + 113·2^4 ◗]
 1817 /3/ [◖ 1 ◗, ◖ 7 = -1 + 1·2^3 ◗, ◖ 57 =  1 + 7·2^3 ◗, ◖ 1817 = -7 + 57·2^5 ◗]
 1819 /3/ [◖ 1 ◗, ◖ 7 = -1 + 1·2^3 ◗, ◖ 455 =  7 + 7·2^6 ◗, ◖ 1819 = -1 + 455·2^2 ◗]
 1821 /3/ [◖ 1 ◗, ◖ 7 = -1 + 1·2^3 ◗, ◖ 455 =  7 + 7·2^6 ◗, ◖ 1821 =  1 + 455·2^2 ◗]
 1823 /3/ [◖ 1 ◗, ◖ 7 = -1 + 1·2^3 ◗, ◖ 57 =  1 + 7·2^3 ◗, ◖ 1823 = -1 + 57·2^5 ◗]
 1825 /3/ [◖ 1 ◗, ◖ 7 = -1 + 1·2^3 ◗, ◖ 57 =  1 + 7·2^3 ◗, ◖ 1825 =  1 + 57·2^5 ◗]
 1827 /3/ [◖ 1 ◗, ◖ 7 = -1 + 1·2^3 ◗, ◖ 455 =  7 + 7·2^6 ◗, ◖ 1827 =  7 + 455·2^2 ◗]
 1829 /3/ [◖ 1 ◗, ◖ 15 = -1 + 1·2^4 ◗, ◖ 59 = -1 + 15·2^2 ◗, ◖ 1829 = -59 + 59·2^5 ◗]
 1831 /3/ [◖ 1 ◗, ◖ 7 = -1 + 1·2^3 ◗, ◖ 57 =  1 + 7·2^3 ◗, ◖ 1831 =  7 + 57·2^5 ◗]
 1833 /4/ [◖ 1 ◗, ◖ 7 = -1 + 1·2^3 ◗, ◖ 57 =  1 + 7·2^3 ◗, ◖ 229 =  1 + 57·2^2 ◗, ◖ 1833 =  1 + 229·2^3 ◗]
 1835 /4/ [◖ 1 ◗, ◖ 7 = -1 + 1·2^3 ◗, ◖ 113 =  1 + 7·2^4 ◗, ◖ 459 =  7 + 113·2^2 ◗, ◖ 1835 = -1 + 459·2^2 ◗]
 1837 /4/ [◖ 1 ◗, ◖ 7 = -1 + 1·2^3 ◗, ◖ 57 =  1 + 7·2^3 ◗, ◖ 919 =  7 + 57·2^4 ◗, ◖ 1837 = -1 + 919·2^1 ◗]
 1839 /4/ [◖ 1 ◗, ◖ 7 = -1 + 1·2^3 ◗, ◖ 29 =  1 + 7·2^2 ◗, ◖ 115 = -1 + 29·2^2 ◗, ◖ 1839 = -1 + 115·2^4 ◗]
 1841 /3/ [◖ 1 ◗, ◖ 7 = -1 + 1·2^3 ◗, ◖ 231 =  7 + 7·2^5 ◗, ◖ 1841 = -7 + 231·2^3 ◗]
 1843 /4/ [◖ 1 ◗, ◖ 7 = -1 + 1·2^3 ◗, ◖ 231 =  7 + 7·2^5 ◗, ◖ 461 = -1 + 231·2^1 ◗, ◖ 1843 = -1 + 461·2^2 ◗]
 1845 /3/ [◖ 1 ◗, ◖ 15 = -1 + 1·2^4 ◗, ◖ 465 = -15 + 15·2^5 ◗, ◖ 1845 = -15 + 465·2^2 ◗]
 1847 /3/ [◖ 1 ◗, ◖ 7 = -1 + 1·2^3 ◗, ◖ 231 =  7 + 7·2^5 ◗, ◖ 1847 = -1 + 231·2^3 ◗]
 1849 /3/ [◖ 1 ◗, ◖ 7 = -1 + 1·2^3 ◗, ◖ 231 =  7 + 7·2^5 ◗, ◖ 1849 =  1 + 231·2^3 ◗]
 1851 /4/ [◖ 1 ◗, ◖ 7 = -1 + 1·2^3 ◗, ◖ 29 =  1 + 7·2^2 ◗, ◖ 463 = -1 + 29·2^4 ◗, ◖ 1851 = -1 + 463·2^2 ◗]
 1853 /3/ [◖ 1 ◗, ◖ 3 =  1 + 1·2^1 ◗, ◖ 195 =  3 + 3·2^6 ◗, ◖ 1853 = -195 + 1·2^11 ◗]
 1855 /3/ [◖ 1 ◗, ◖ 7 = -1 + 1·2^3 ◗, ◖ 29 =  1 + 7·2^2 ◗, ◖ 1855 = -1 + 29·2^6 ◗]
".
Definition g11_29 : string := " 1857 /3/ [◖ 1 ◗, ◖ 7 = -1 + 1·2^3 ◗, ◖ 29 =  1 + 7·2^2 ◗, ◖ 1857 =  1 + 29·2^6 ◗]
 1859 /3/ [◖ 1 ◗, ◖ 15 = -1 + 1·2^4 ◗, ◖ 465 = -15 + 15·2^5 ◗, ◖ 1859 = -1 + 465·2^2 ◗]
 1861 /3/ [◖ 1 ◗, ◖ 15 = -1 + 1·2^4 ◗, ◖ 465 = -15 + 15·2^5 ◗, ◖ 1861 =  1 + 465·2^2 ◗]
 1863 /3/ [◖ 1 ◗, ◖ 7 = -1 + 1·2^3 ◗, ◖ 29 =  1 + 7·2^2 ◗, ◖ 1863 =  7 + 29·2^6 ◗]
 1865 /4/ [◖ 1 ◗, ◖ 7 = -1 + 1·2^3 ◗, ◖ 29 =  1 + 7·2^2 ◗, ◖ 233 =  1 + 29·2^3 ◗, ◖ 1865 =  1 + 233·2^3 ◗]
 1867 /4/ [◖ 1 ◗, ◖ 15 = -1 + 1·2^4 ◗, ◖ 241 =  1 + 15·2^4 ◗, ◖ 467 = -15 + 241·2^1 ◗, ◖ 1867 = -1 + 467·2^2 ◗]
 1869 /4/ [◖ 1 ◗, ◖ 7 = -1 + 1·2^3 ◗, ◖ 29 =  1 + 7·2^2 ◗, ◖ 935 =  7 + 29·2^5 ◗, ◖ 1869 = -1 + 935·2^1 ◗]
 1871 /3/ [◖ 1 ◗, ◖ 15 = -1 + 1·2^4 ◗, ◖ 1935 =  15 + 15·2^7 ◗, ◖ 1871 =  1935 - 1·2^6 ◗]
 1873 /3/ [◖ 1 ◗, ◖ 15 = -1 + 1·2^4 ◗, ◖ 59 = -1 + 15·2^2 ◗, ◖ 1873 = -15 + 59·2^5 ◗]
 1875 /3/ [◖ 1 ◗, ◖ 15 = -1 + 1·2^4 ◗, ◖ 465 = -15 + 15·2^5 ◗, ◖ 1875 =  15 + 465·2^2 ◗]
 1877 /4/ [◖ 1 ◗, ◖ 7 = -1 + 1·2^3 ◗, ◖ 231 =  7 + 7·2^5 ◗, ◖ 469 =  7 + 231·2^1 ◗, ◖ 1877 =  1 + 469·2^2 ◗]
 1879 /4/ [◖ 1 ◗, ◖ 15 = -1 + 1·2^4 ◗, ◖ 59 = -1 + 15·2^2 ◗, ◖ 235 = -1 + 59·2^2 ◗, ◖ 1879 = -1 + 235·2^3 ◗]
 1881 /3/ [◖ 1 ◗, ◖ 7 = -1 + 1·2^3 ◗, ◖ 57 =  1 + 7·2^3 ◗, ◖ 1881 =  57 + 57·2^5 ◗]
 1883 /3/ [◖ 1 ◗, ◖ 5 =  1 + 1·2^2 ◗, ◖ 165 =  5 + 5·2^5 ◗, ◖ 1883 = -165 + 1·2^11 ◗]
 1885 /3/ [◖ 1 ◗, ◖ 7 = -1 + 1·2^3 ◗, ◖ 29 =  1 + 7·2^2 ◗, ◖ 1885 =  29 + 29·2^6 ◗]
 1887 /3/ [◖ 1 ◗, ◖ 15 = -1 + 1·2^4 ◗, ◖ 59 = -1 + 15·2^2 ◗, ◖ 1887 = -1 + 59·2^5 ◗]
 1889 /3/ [◖ 1 ◗, ◖ 15 = -1 + 1·2^4 ◗, ◖ 59 = -1 + 15·2^2 ◗, ◖ 1889 =  1 + 59·2^5 ◗]
 1891 /3/ [◖ 1 ◗, ◖ 15 = -1 + 1·2^4 ◗, ◖ 945 = -15 + 15·2^6 ◗, ◖ 1891 =  1 + 945·2^1 ◗]
 1893 /3/ [◖ 1 ◗, ◖ 5 =  1 + 1·2^2 ◗, ◖ 155 = -5 + 5·2^5 ◗, ◖ 1893 = -155 + 1·2^11 ◗]
 1895 /3/ [◖ 1 ◗, ◖ 9 =  1 + 1·2^3 ◗, ◖ 153 =  9 + 9·2^4 ◗, ◖ 1895 = -153 + 1·2^11 ◗]
 1897 /3/ [◖ 1 ◗, ◖ 15 = -1 + 1·2^4 ◗, ◖ 239 = -1 + 15·2^4 ◗, ◖ 1897 = -15 + 239·2^3 ◗]
 1899 /4/ [◖ 1 ◗, ◖ 15 = -1 + 1·2^4 ◗, ◖ 119 = -1 + 15·2^3 ◗, ◖ 475 = -1 + 119·2^2 ◗, ◖ 1899 = -1 + 475·2^2 ◗]
 1901 /3/ [◖ 1 ◗, ◖ 15 = -1 + 1·2^4 ◗, ◖ 479 = -1 + 15·2^5 ◗, ◖ 1901 = -15 + 479·2^2 ◗]
 1903 /3/ [◖ 1 ◗, ◖ 15 = -1 + 1·2^4 ◗, ◖ 119 = -1 + 15·2^3 ◗, ◖ 1903 = -1 + 119·2^4 ◗]
 1905 /2/ [◖ 1 ◗, ◖ 15 = -1 + 1·2^4 ◗, ◖ 1905 = -15 + 15·2^7 ◗]
 1907 /3/ [◖ 1 ◗, ◖ 15 = -1 + 1·2^4 ◗, ◖ 961 =  1 + 15·2^6 ◗, ◖ 1907 = -15 + 961·2^1 ◗]
 1909 /3/ [◖ 1 ◗, ◖ 15 = -1 + 1·2^4 ◗, ◖ 481 =  1 + 15·2^5 ◗, ◖ 1909 = -15 + 481·2^2 ◗]
 1911 /3/ [◖ 1 ◗, ◖ 15 = -1 + 1·2^4 ◗, ◖ 239 = -1 + 15·2^4 ◗, ◖ 1911 = -1 + 239·2^3 ◗]
 1913 /3/ [◖ 1 ◗, ◖ 15 = -1 + 1·2^4 ◗, ◖ 239 = -1 + 15·2^4 ◗, ◖ 1913 =  1 + 239·2^3 ◗]
 1915 /3/ [◖ 1 ◗, ◖ 15 = -1 + 1·2^4 ◗, ◖ 479 = -1 + 15·2^5 ◗, ◖ 1915 = -1 + 479·2^2 ◗]
 1917 /3/ [◖ 1 ◗, ◖ 15 = -1 + 1·2^4 ◗, ◖ 479 = -1 + 15·2^5 ◗, ◖ 1917 =  1 + 479·2^2 ◗]
 1919 /2/ [◖ 1 ◗, ◖ 15 = -1 + 1·2^4 ◗, ◖ 1919 = -1 + 15·2^7 ◗]
".
Definition g11_30 : string := " 1921 /2/ [◖ 1 ◗, ◖ 15 = -1 + 1·2^4 ◗, ◖ 1921 =  1 + 15·2^7 ◗]
 1923 /3/ [◖ 1 ◗, ◖ 15 = -1 + 1·2^4 ◗, ◖ 481 =  1 + 15·2^5 ◗, ◖ 1923 = -1 + 481·2^2 ◗]
 1925 /3/ [◖ 1 ◗, ◖ 15 = -1 + 1·2^4 ◗, ◖ 481 =  1 + 15·2^5 ◗, ◖ 1925 =  1 + 481·2^2 ◗]
 1927 /3/ [◖ 1 ◗, ◖ 15 = -1 + 1·2^4 ◗, ◖ 241 =  1 + 15·2^4 ◗, ◖ 1927 = -1 + 241·2^3 ◗]
 1929 /3/ [◖ 1 ◗, ◖ 15 = -1 + 1·2^4 ◗, ◖ 241 =  1 + 15·2^4 ◗, ◖ 1929 =  1 + 241·2^3 ◗]
 1931 /3/ [◖ 1 ◗, ◖ 15 = -1 + 1·2^4 ◗, ◖ 479 = -1 + 15·2^5 ◗, ◖ 1931 =  15 + 479·2^2 ◗]
 1933 /3/ [◖ 1 ◗, ◖ 15 = -1 + 1·2^4 ◗, ◖ 959 = -1 + 15·2^6 ◗, ◖ 1933 =  15 + 959·2^1 ◗]
 1935 /2/ [◖ 1 ◗, ◖ 15 = -1 + 1·2^4 ◗, ◖ 1935 =  15 + 15·2^7 ◗]
 1937 /3/ [◖ 1 ◗, ◖ 15 = -1 + 1·2^4 ◗, ◖ 121 =  1 + 15·2^3 ◗, ◖ 1937 =  1 + 121·2^4 ◗]
 1939 /3/ [◖ 1 ◗, ◖ 15 = -1 + 1·2^4 ◗, ◖ 481 =  1 + 15·2^5 ◗, ◖ 1939 =  15 + 481·2^2 ◗]
 1941 /4/ [◖ 1 ◗, ◖ 15 = -1 + 1·2^4 ◗, ◖ 121 =  1 + 15·2^3 ◗, ◖ 485 =  1 + 121·2^2 ◗, ◖ 1941 =  1 + 485·2^2 ◗]
 1943 /3/ [◖ 1 ◗, ◖ 15 = -1 + 1·2^4 ◗, ◖ 241 =  1 + 15·2^4 ◗, ◖ 1943 =  15 + 241·2^3 ◗]
 1945 /3/ [◖ 1 ◗, ◖ 31 = -1 + 1·2^5 ◗, ◖ 247 = -1 + 31·2^3 ◗, ◖ 1945 = -31 + 247·2^3 ◗]
 1947 /3/ [◖ 1 ◗, ◖ 15 = -1 + 1·2^4 ◗, ◖ 59 = -1 + 15·2^2 ◗, ◖ 1947 =  59 + 59·2^5 ◗]
 1949 /3/ [◖ 1 ◗, ◖ 15 = -1 + 1·2^4 ◗, ◖ 975 =  15 + 15·2^6 ◗, ◖ 1949 = -1 + 975·2^1 ◗]
 1951 /3/ [◖ 1 ◗, ◖ 15 = -1 + 1·2^4 ◗, ◖ 61 =  1 + 15·2^2 ◗, ◖ 1951 = -1 + 61·2^5 ◗]
 1953 /2/ [◖ 1 ◗, ◖ 31 = -1 + 1·2^5 ◗, ◖ 1953 = -31 + 31·2^6 ◗]
 1955 /3/ [◖ 1 ◗, ◖ 31 = -1 + 1·2^5 ◗, ◖ 993 =  1 + 31·2^5 ◗, ◖ 1955 = -31 + 993·2^1 ◗]
 1957 /3/ [◖ 1 ◗, ◖ 31 = -1 + 1·2^5 ◗, ◖ 497 =  1 + 31·2^4 ◗, ◖ 1957 = -31 + 497·2^2 ◗]
 1959 /4/ [◖ 1 ◗, ◖ 15 = -1 + 1·2^4 ◗, ◖ 61 =  1 + 15·2^2 ◗, ◖ 245 =  1 + 61·2^2 ◗, ◖ 1959 = -1 + 245·2^3 ◗]
 1961 /3/ [◖ 1 ◗, ◖ 31 = -1 + 1·2^5 ◗, ◖ 249 =  1 + 31·2^3 ◗, ◖ 1961 = -31 + 249·2^3 ◗]
 1963 /3/ [◖ 1 ◗, ◖ 5 =  1 + 1·2^2 ◗, ◖ 85 =  5 + 5·2^4 ◗, ◖ 1963 = -85 + 1·2^11 ◗]
 1965 /3/ [◖ 1 ◗, ◖ 15 = -1 + 1·2^4 ◗, ◖ 975 =  15 + 15·2^6 ◗, ◖ 1965 =  15 + 975·2^1 ◗]
 1967 /3/ [◖ 1 ◗, ◖ 31 = -1 + 1·2^5 ◗, ◖ 123 = -1 + 31·2^2 ◗, ◖ 1967 = -1 + 123·2^4 ◗]
 1969 /3/ [◖ 1 ◗, ◖ 31 = -1 + 1·2^5 ◗, ◖ 123 = -1 + 31·2^2 ◗, ◖ 1969 =  1 + 123·2^4 ◗]
 1971 /4/ [◖ 1 ◗, ◖ 31 = -1 + 1·2^5 ◗, ◖ 123 = -1 + 31·2^2 ◗, ◖ 493 =  1 + 123·2^2 ◗, ◖ 1971 = -1 + 493·2^2 ◗]
 1973 /3/ [◖ 1 ◗, ◖ 5 =  1 + 1·2^2 ◗, ◖ 75 = -5 + 5·2^4 ◗, ◖ 1973 = -75 + 1·2^11 ◗]
 1975 /3/ [◖ 1 ◗, ◖ 31 = -1 + 1·2^5 ◗, ◖ 247 = -1 + 31·2^3 ◗, ◖ 1975 = -1 + 247·2^3 ◗]
 1977 /3/ [◖ 1 ◗, ◖ 31 = -1 + 1·2^5 ◗, ◖ 247 = -1 + 31·2^3 ◗, ◖ 1977 =  1 + 247·2^3 ◗]
 1979 /3/ [◖ 1 ◗, ◖ 31 = -1 + 1·2^5 ◗, ◖ 495 = -1 + 31·2^4 ◗, ◖ 1979 = -1 + 495·2^2 ◗]
 1981 /3/ [◖ 1 ◗, ◖ 31 = -1 + 1·2^5 ◗, ◖ 495 = -1 + 31·2^4 ◗, ◖ 1981 =  1 + 495·2^2 ◗]
 1983 /2/ [◖ 1 ◗, ◖ 31 = -1 + 1·2^5 ◗, ◖ 1983 = -1 + 31·2^6 ◗]
".
Definition g11_31 : string := " 1985 /2/ [◖ 1 ◗, ◖ 31 = -1 + 1·2^5 ◗, ◖ 1985 =  1 + 31·2^6 ◗]
 1987 /3/ [◖ 1 ◗, ◖ 31 = -1 + 1·2^5 ◗, ◖ 497 =  1 + 31·2^4 ◗, ◖ 1987 = -1 + 497·2^2 ◗]
 1989 /3/ [◖ 1 ◗, ◖ 31 = -1 + 1·2^5 ◗, ◖ 497 =  1 + 31·2^4 ◗, ◖ 1989 =  1 + 497·2^2 ◗]
 1991 /3/ [◖ 1 ◗, ◖ 31 = -1 + 1·2^5 ◗, ◖ 249 =  1 + 31·2^3 ◗, ◖ 1991 = -1 + 249·2^3 ◗]
 1993 /3/ [◖ 1 ◗, ◖ 31 = -1 + 1·2^5 ◗, ◖ 249 =  1 + 31·2^3 ◗, ◖ 1993 =  1 + 249·2^3 ◗]
 1995 /3/ [◖ 1 ◗, ◖ 33 =  1 + 1·2^5 ◗, ◖ 133 =  1 + 33·2^2 ◗, ◖ 1995 = -133 + 133·2^4 ◗]
 1997 /3/ [◖ 1 ◗, ◖ 3 =  1 + 1·2^1 ◗, ◖ 51 =  3 + 3·2^4 ◗, ◖ 1997 = -51 + 1·2^11 ◗]
 1999 /3/ [◖ 1 ◗, ◖ 31 = -1 + 1·2^5 ◗, ◖ 125 =  1 + 31·2^2 ◗, ◖ 1999 = -1 + 125·2^4 ◗]
 2001 /3/ [◖ 1 ◗, ◖ 31 = -1 + 1·2^5 ◗, ◖ 125 =  1 + 31·2^2 ◗, ◖ 2001 =  1 + 125·2^4 ◗]
 2003 /3/ [◖ 1 ◗, ◖ 3 =  1 + 1·2^1 ◗, ◖ 45 = -3 + 3·2^4 ◗, ◖ 2003 = -45 + 1·2^11 ◗]
 2005 /4/ [◖ 1 ◗, ◖ 31 = -1 + 1·2^5 ◗, ◖ 125 =  1 + 31·2^2 ◗, ◖ 501 =  1 + 125·2^2 ◗, ◖ 2005 =  1 + 501·2^2 ◗]
 2007 /3/ [◖ 1 ◗, ◖ 63 = -1 + 1·2^6 ◗, ◖ 251 = -1 + 63·2^2 ◗, ◖ 2007 = -1 + 251·2^3 ◗]
 2009 /3/ [◖ 1 ◗, ◖ 63 = -1 + 1·2^6 ◗, ◖ 251 = -1 + 63·2^2 ◗, ◖ 2009 =  1 + 251·2^3 ◗]
 2011 /3/ [◖ 1 ◗, ◖ 63 = -1 + 1·2^6 ◗, ◖ 503 = -1 + 63·2^3 ◗, ◖ 2011 = -1 + 503·2^2 ◗]
 2013 /3/ [◖ 1 ◗, ◖ 63 = -1 + 1·2^6 ◗, ◖ 503 = -1 + 63·2^3 ◗, ◖ 2013 =  1 + 503·2^2 ◗]
 2015 /2/ [◖ 1 ◗, ◖ 63 = -1 + 1·2^6 ◗, ◖ 2015 = -1 + 63·2^5 ◗]
 2017 /2/ [◖ 1 ◗, ◖ 63 = -1 + 1·2^6 ◗, ◖ 2017 =  1 + 63·2^5 ◗]
 2019 /3/ [◖ 1 ◗, ◖ 63 = -1 + 1·2^6 ◗, ◖ 505 =  1 + 63·2^3 ◗, ◖ 2019 = -1 + 505·2^2 ◗]
 2021 /3/ [◖ 1 ◗, ◖ 63 = -1 + 1·2^6 ◗, ◖ 505 =  1 + 63·2^3 ◗, ◖ 2021 =  1 + 505·2^2 ◗]
 2023 /3/ [◖ 1 ◗, ◖ 63 = -1 + 1·2^6 ◗, ◖ 253 =  1 + 63·2^2 ◗, ◖ 2023 = -1 + 253·2^3 ◗]
 2025 /3/ [◖ 1 ◗, ◖ 63 = -1 + 1·2^6 ◗, ◖ 253 =  1 + 63·2^2 ◗, ◖ 2025 =  1 + 253·2^3 ◗]
 2027 /3/ [◖ 1 ◗, ◖ 127 = -1 + 1·2^7 ◗, ◖ 507 = -1 + 127·2^2 ◗, ◖ 2027 = -1 + 507·2^2 ◗]
 2029 /3/ [◖ 1 ◗, ◖ 127 = -1 + 1·2^7 ◗, ◖ 507 = -1 + 127·2^2 ◗, ◖ 2029 =  1 + 507·2^2 ◗]
 2031 /2/ [◖ 1 ◗, ◖ 127 = -1 + 1·2^7 ◗, ◖ 2031 = -1 + 127·2^4 ◗]
 2033 /2/ [◖ 1 ◗, ◖ 127 = -1 + 1·2^7 ◗, ◖ 2033 =  1 + 127·2^4 ◗]
 2035 /3/ [◖ 1 ◗, ◖ 127 = -1 + 1·2^7 ◗, ◖ 509 =  1 + 127·2^2 ◗, ◖ 2035 = -1 + 509·2^2 ◗]
 2037 /3/ [◖ 1 ◗, ◖ 127 = -1 + 1·2^7 ◗, ◖ 509 =  1 + 127·2^2 ◗, ◖ 2037 =  1 + 509·2^2 ◗]
 2039 /2/ [◖ 1 ◗, ◖ 255 = -1 + 1·2^8 ◗, ◖ 2039 = -1 + 255·2^3 ◗]
 2041 /2/ [◖ 1 ◗, ◖ 255 = -1 + 1·2^8 ◗, ◖ 2041 =  1 + 255·2^3 ◗]
 2043 /2/ [◖ 1 ◗, ◖ 511 = -1 + 1·2^9 ◗, ◖ 2043 = -1 + 511·2^2 ◗]
 2045 /2/ [◖ 1 ◗, ◖ 511 = -1 + 1·2^9 ◗, ◖ 2045 =  1 + 511·2^2 ◗]
 2047 /1/ [◖ 1 ◗, ◖ 2047 = -1 + 1·2^11 ◗]
".
(** guarantee_11-bit.log *)
Definition g11_literals : list string := (g11_0 :: g11_1 :: g11_2 :: g11_3 :: g11_4 :: g11_5 :: g11_6 :: g11_7 :: g11_8 :: g11_9 :: g11_10 :: g11_11 :: g11_12 :: g11_13 :: g11_14 :: g11_15 :: g11_16 :: g11_17 :: g11_18 :: g11_19 :: g11_20 :: g11_21 :: g11_22 :: g11_23 :: g11_24 :: g11_25 :: g11_26 :: g11_27 :: g11_28 :: g11_29 :: g11_30 :: g11_31 :: nil)%list.

Definition v2_0 : string := "    1 /0/ [◖ 1 ◗]
    3 /1/ [◖ 1 ◗, ◖ 3 =  1 + 1·2^1 ◗]
    5 /1/ [◖ 1 ◗, ◖ 5 =  1 + 1·2^2 ◗]
    7 /1/ [◖ 1 ◗, ◖ 7 = -1 + 1·2^3 ◗]
    9 /1/ [◖ 1 ◗, ◖ 9 =  1 + 1·2^3 ◗]
   11 /2/ [◖ 1 ◗, ◖ 3 =  1 + 1·2^1 ◗, ◖ 11 = -1 + 3·2^2 ◗]
   13 /2/ [◖ 1 ◗, ◖ 3 =  1 + 1·2^1 ◗, ◖ 13 =  1 + 3·2^2 ◗]
   15 /1/ [◖ 1 ◗, ◖ 15 = -1 + 1·2^4 ◗]
   17 /1/ [◖ 1 ◗, ◖ 17 =  1 + 1·2^4 ◗]
   19 /2/ [◖ 1 ◗, ◖ 5 =  1 + 1·2^2 ◗, ◖ 19 = -1 + 5·2^2 ◗]
   21 /2/ [◖ 1 ◗, ◖ 5 =  1 + 1·2^2 ◗, ◖ 21 =  1 + 5·2^2 ◗]
   23 /2/ [◖ 1 ◗, ◖ 3 =  1 + 1·2^1 ◗, ◖ 23 = -1 + 3·2^3 ◗]
   25 /2/ [◖ 1 ◗, ◖ 3 =  1 + 1·2^1 ◗, ◖ 25 =  1 + 3·2^3 ◗]
   27 /2/ [◖ 1 ◗, ◖ 7 = -1 + 1·2^3 ◗, ◖ 27 = -1 + 7·2^2 ◗]
   29 /2/ [◖ 1 ◗, ◖ 7 = -1 + 1·2^3 ◗, ◖ 29 =  1 + 7·2^2 ◗]
   31 /1/ [◖ 1 ◗, ◖ 31 = -1 + 1·2^5 ◗]
   33 /1/ [◖ 1 ◗, ◖ 33 =  1 + 1·2^5 ◗]
   35 /2/ [◖ 1 ◗, ◖ 9 =  1 + 1·2^3 ◗, ◖ 35 = -1 + 9·2^2 ◗]
   37 /2/ [◖ 1 ◗, ◖ 9 =  1 + 1·2^3 ◗, ◖ 37 =  1 + 9·2^2 ◗]
   39 /2/ [◖ 1 ◗, ◖ 5 =  1 + 1·2^2 ◗, ◖ 39 = -1 + 5·2^3 ◗]
   41 /2/ [◖ 1 ◗, ◖ 5 =  1 + 1·2^2 ◗, ◖ 41 =  1 + 5·2^3 ◗]
   43 /3/ [◖ 1 ◗, ◖ 3 =  1 + 1·2^1 ◗, ◖ 11 = -1 + 3·2^2 ◗, ◖ 43 = -1 + 11·2^2 ◗]
   45 /2/ [◖ 1 ◗, ◖ 3 =  1 + 1·2^1 ◗, ◖ 45 = -3 + 3·2^4 ◗]
   47 /2/ [◖ 1 ◗, ◖ 3 =  1 + 1·2^1 ◗, ◖ 47 = -1 + 3·2^4 ◗]
   49 /2/ [◖ 1 ◗, ◖ 3 =  1 + 1·2^1 ◗, ◖ 49 =  1 + 3·2^4 ◗]
   51 /2/ [◖ 1 ◗, ◖ 3 =  1 + 1·2^1 ◗, ◖ 51 =  3 + 3·2^4 ◗]
   53 /3/ [◖ 1 ◗, ◖ 3 =  1 + 1·2^1 ◗, ◖ 13 =  1 + 3·2^2 ◗, ◖ 53 =  1 + 13·2^2 ◗]
   55 /2/ [◖ 1 ◗, ◖ 7 = -1 + 1·2^3 ◗, ◖ 55 = -1 + 7·2^3 ◗]
   57 /2/ [◖ 1 ◗, ◖ 7 = -1 + 1·2^3 ◗, ◖ 57 =  1 + 7·2^3 ◗]
   59 /2/ [◖ 1 ◗, ◖ 15 = -1 + 1·2^4 ◗, ◖ 59 = -1 + 15·2^2 ◗]
   61 /2/ [◖ 1 ◗, ◖ 15 = -1 + 1·2^4 ◗, ◖ 61 =  1 + 15·2^2 ◗]
   63 /1/ [◖ 1 ◗, ◖ 63 = -1 + 1·2^6 ◗]
".
Definition v2_1 : string := "   65 /1/ [◖ 1 ◗, ◖ 65 =  1 + 1·2^6 ◗]
   67 /2/ [◖ 1 ◗, ◖ 17 =  1 + 1·2^4 ◗, ◖ 67 = -1 + 17·2^2 ◗]
   69 /2/ [◖ 1 ◗, ◖ 17 =  1 + 1·2^4 ◗, ◖ 69 =  1 + 17·2^2 ◗]
   71 /2/ [◖ 1 ◗, ◖ 9 =  1 + 1·2^3 ◗, ◖ 71 = -1 + 9·2^3 ◗]
   73 /2/ [◖ 1 ◗, ◖ 9 =  1 + 1·2^3 ◗, ◖ 73 =  1 + 9·2^3 ◗]
   75 /2/ [◖ 1 ◗, ◖ 5 =  1 + 1·2^2 ◗, ◖ 75 = -5 + 5·2^4 ◗]
   77 /3/ [◖ 1 ◗, ◖ 5 =  1 + 1·2^2 ◗, ◖ 19 = -1 + 5·2^2 ◗, ◖ 77 =  1 + 19·2^2 ◗]
   79 /2/ [◖ 1 ◗, ◖ 5 =  1 + 1·2^2 ◗, ◖ 79 = -1 + 5·2^4 ◗]
   81 /2/ [◖ 1 ◗, ◖ 5 =  1 + 1·2^2 ◗, ◖ 81 =  1 + 5·2^4 ◗]
   83 /3/ [◖ 1 ◗, ◖ 5 =  1 + 1·2^2 ◗, ◖ 21 =  1 + 5·2^2 ◗, ◖ 83 = -1 + 21·2^2 ◗]
   85 /2/ [◖ 1 ◗, ◖ 5 =  1 + 1·2^2 ◗, ◖ 85 =  5 + 5·2^4 ◗]
   87 /3/ [◖ 1 ◗, ◖ 3 =  1 + 1·2^1 ◗, ◖ 11 = -1 + 3·2^2 ◗, ◖ 87 = -1 + 11·2^3 ◗]
   89 /3/ [◖ 1 ◗, ◖ 3 =  1 + 1·2^1 ◗, ◖ 11 = -1 + 3·2^2 ◗, ◖ 89 =  1 + 11·2^3 ◗]
   91 /3/ [◖ 1 ◗, ◖ 3 =  1 + 1·2^1 ◗, ◖ 23 = -1 + 3·2^3 ◗, ◖ 91 = -1 + 23·2^2 ◗]
   93 /2/ [◖ 1 ◗, ◖ 3 =  1 + 1·2^1 ◗, ◖ 93 = -3 + 3·2^5 ◗]
   95 /2/ [◖ 1 ◗, ◖ 3 =  1 + 1·2^1 ◗, ◖ 95 = -1 + 3·2^5 ◗]
   97 /2/ [◖ 1 ◗, ◖ 3 =  1 + 1·2^1 ◗, ◖ 97 =  1 + 3·2^5 ◗]
   99 /2/ [◖ 1 ◗, ◖ 3 =  1 + 1·2^1 ◗, ◖ 99 =  3 + 3·2^5 ◗]
  101 /3/ [◖ 1 ◗, ◖ 3 =  1 + 1·2^1 ◗, ◖ 25 =  1 + 3·2^3 ◗, ◖ 101 =  1 + 25·2^2 ◗]
  103 /3/ [◖ 1 ◗, ◖ 3 =  1 + 1·2^1 ◗, ◖ 13 =  1 + 3·2^2 ◗, ◖ 103 = -1 + 13·2^3 ◗]
  105 /2/ [◖ 1 ◗, ◖ 7 = -1 + 1·2^3 ◗, ◖ 105 = -7 + 7·2^4 ◗]
  107 /3/ [◖ 1 ◗, ◖ 7 = -1 + 1·2^3 ◗, ◖ 27 = -1 + 7·2^2 ◗, ◖ 107 = -1 + 27·2^2 ◗]
  109 /3/ [◖ 1 ◗, ◖ 7 = -1 + 1·2^3 ◗, ◖ 27 = -1 + 7·2^2 ◗, ◖ 109 =  1 + 27·2^2 ◗]
  111 /2/ [◖ 1 ◗, ◖ 7 = -1 + 1·2^3 ◗, ◖ 111 = -1 + 7·2^4 ◗]
  113 /2/ [◖ 1 ◗, ◖ 7 = -1 + 1·2^3 ◗, ◖ 113 =  1 + 7·2^4 ◗]
  115 /3/ [◖ 1 ◗, ◖ 7 = -1 + 1·2^3 ◗, ◖ 29 =  1 + 7·2^2 ◗, ◖ 115 = -1 + 29·2^2 ◗]
  117 /3/ [◖ 1 ◗, ◖ 7 = -1 + 1·2^3 ◗, ◖ 29 =  1 + 7·2^2 ◗, ◖ 117 =  1 + 29·2^2 ◗]
  119 /2/ [◖ 1 ◗, ◖ 15 = -1 + 1·2^4 ◗, ◖ 119 = -1 + 15·2^3 ◗]
  121 /2/ [◖ 1 ◗, ◖ 15 = -1 + 1·2^4 ◗, ◖ 121 =  1 + 15·2^3 ◗]
  123 /2/ [◖ 1 ◗, ◖ 31 = -1 + 1·2^5 ◗, ◖ 123 = -1 + 31·2^2 ◗]
  125 /2/ [◖ 1 ◗, ◖ 31 = -1 + 1·2^5 ◗, ◖ 125 =  1 + 31·2^2 ◗]
  127 /1/ [◖ 1 ◗, ◖ 127 = -1 + 1·2^7 ◗]
".
Definition v2_2 : string := "  129 /1/ [◖ 1 ◗, ◖ 129 =  1 + 1·2^7 ◗]
  131 /2/ [◖ 1 ◗, ◖ 33 =  1 + 1·2^5 ◗, ◖ 131 = -1 + 33·2^2 ◗]
  133 /2/ [◖ 1 ◗, ◖ 33 =  1 + 1·2^5 ◗, ◖ 133 =  1 + 33·2^2 ◗]
  135 /2/ [◖ 1 ◗, ◖ 17 =  1 + 1·2^4 ◗, ◖ 135 = -1 + 17·2^3 ◗]
  137 /2/ [◖ 1 ◗, ◖ 17 =  1 + 1·2^4 ◗, ◖ 137 =  1 + 17·2^3 ◗]
  139 /3/ [◖ 1 ◗, ◖ 9 =  1 + 1·2^3 ◗, ◖ 35 = -1 + 9·2^2 ◗, ◖ 139 = -1 + 35·2^2 ◗]
  141 /3/ [◖ 1 ◗, ◖ 9 =  1 + 1·2^3 ◗, ◖ 35 = -1 + 9·2^2 ◗, ◖ 141 =  1 + 35·2^2 ◗]
  143 /2/ [◖ 1 ◗, ◖ 9 =  1 + 1·2^3 ◗, ◖ 143 = -1 + 9·2^4 ◗]
  145 /2/ [◖ 1 ◗, ◖ 9 =  1 + 1·2^3 ◗, ◖ 145 =  1 + 9·2^4 ◗]
  147 /3/ [◖ 1 ◗, ◖ 9 =  1 + 1·2^3 ◗, ◖ 37 =  1 + 9·2^2 ◗, ◖ 147 = -1 + 37·2^2 ◗]
  149 /3/ [◖ 1 ◗, ◖ 9 =  1 + 1·2^3 ◗, ◖ 37 =  1 + 9·2^2 ◗, ◖ 149 =  1 + 37·2^2 ◗]
  151 /3/ [◖ 1 ◗, ◖ 5 =  1 + 1·2^2 ◗, ◖ 19 = -1 + 5·2^2 ◗, ◖ 151 = -1 + 19·2^3 ◗]
  153 /2/ [◖ 1 ◗, ◖ 9 =  1 + 1·2^3 ◗, ◖ 153 =  9 + 9·2^4 ◗]
  155 /2/ [◖ 1 ◗, ◖ 5 =  1 + 1·2^2 ◗, ◖ 155 = -5 + 5·2^5 ◗]
  157 /3/ [◖ 1 ◗, ◖ 5 =  1 + 1·2^2 ◗, ◖ 39 = -1 + 5·2^3 ◗, ◖ 157 =  1 + 39·2^2 ◗]
  159 /2/ [◖ 1 ◗, ◖ 5 =  1 + 1·2^2 ◗, ◖ 159 = -1 + 5·2^5 ◗]
  161 /2/ [◖ 1 ◗, ◖ 5 =  1 + 1·2^2 ◗, ◖ 161 =  1 + 5·2^5 ◗]
  163 /3/ [◖ 1 ◗, ◖ 5 =  1 + 1·2^2 ◗, ◖ 41 =  1 + 5·2^3 ◗, ◖ 163 = -1 + 41·2^2 ◗]
  165 /2/ [◖ 1 ◗, ◖ 5 =  1 + 1·2^2 ◗, ◖ 165 =  5 + 5·2^5 ◗]
  167 /3/ [◖ 1 ◗, ◖ 5 =  1 + 1·2^2 ◗, ◖ 21 =  1 + 5·2^2 ◗, ◖ 167 = -1 + 21·2^3 ◗]
  169 /3/ [◖ 1 ◗, ◖ 5 =  1 + 1·2^2 ◗, ◖ 21 =  1 + 5·2^2 ◗, ◖ 169 =  1 + 21·2^3 ◗]
  171 /3/ [◖ 1 ◗, ◖ 5 =  1 + 1·2^2 ◗, ◖ 85 =  5 + 5·2^4 ◗, ◖ 171 =  1 + 85·2^1 ◗]
  173 /3/ [◖ 1 ◗, ◖ 3 =  1 + 1·2^1 ◗, ◖ 11 = -1 + 3·2^2 ◗, ◖ 173 = -3 + 11·2^4 ◗]
  175 /3/ [◖ 1 ◗, ◖ 3 =  1 + 1·2^1 ◗, ◖ 11 = -1 + 3·2^2 ◗, ◖ 175 = -1 + 11·2^4 ◗]
  177 /3/ [◖ 1 ◗, ◖ 3 =  1 + 1·2^1 ◗, ◖ 11 = -1 + 3·2^2 ◗, ◖ 177 =  1 + 11·2^4 ◗]
  179 /3/ [◖ 1 ◗, ◖ 3 =  1 + 1·2^1 ◗, ◖ 45 = -3 + 3·2^4 ◗, ◖ 179 = -1 + 45·2^2 ◗]
  181 /3/ [◖ 1 ◗, ◖ 3 =  1 + 1·2^1 ◗, ◖ 45 = -3 + 3·2^4 ◗, ◖ 181 =  1 + 45·2^2 ◗]
  183 /3/ [◖ 1 ◗, ◖ 3 =  1 + 1·2^1 ◗, ◖ 23 = -1 + 3·2^3 ◗, ◖ 183 = -1 + 23·2^3 ◗]
  185 /3/ [◖ 1 ◗, ◖ 3 =  1 + 1·2^1 ◗, ◖ 23 = -1 + 3·2^3 ◗, ◖ 185 =  1 + 23·2^3 ◗]
  187 /3/ [◖ 1 ◗, ◖ 3 =  1 + 1·2^1 ◗, ◖ 47 = -1 + 3·2^4 ◗, ◖ 187 = -1 + 47·2^2 ◗]
  189 /2/ [◖ 1 ◗, ◖ 3 =  1 + 1·2^1 ◗, ◖ 189 = -3 + 3·2^6 ◗]
  191 /2/ [◖ 1 ◗, ◖ 3 =  1 + 1·2^1 ◗, ◖ 191 = -1 + 3·2^6 ◗]
".
Definition v2_3 : string := "  193 /2/ [◖ 1 ◗, ◖ 3 =  1 + 1·2^1 ◗, ◖ 193 =  1 + 3·2^6 ◗]
  195 /2/ [◖ 1 ◗, ◖ 3 =  1 + 1·2^1 ◗, ◖ 195 =  3 + 3·2^6 ◗]
  197 /3/ [◖ 1 ◗, ◖ 3 =  1 + 1·2^1 ◗, ◖ 49 =  1 + 3·2^4 ◗, ◖ 197 =  1 + 49·2^2 ◗]
  199 /3/ [◖ 1 ◗, ◖ 3 =  1 + 1·2^1 ◗, ◖ 25 =  1 + 3·2^3 ◗, ◖ 199 = -1 + 25·2^3 ◗]
  201 /3/ [◖ 1 ◗, ◖ 3 =  1 + 1·2^1 ◗, ◖ 25 =  1 + 3·2^3 ◗, ◖ 201 =  1 + 25·2^3 ◗]
  203 /3/ [◖ 1 ◗, ◖ 3 =  1 + 1·2^1 ◗, ◖ 51 =  3 + 3·2^4 ◗, ◖ 203 = -1 + 51·2^2 ◗]
  205 /3/ [◖ 1 ◗, ◖ 3 =  1 + 1·2^1 ◗, ◖ 51 =  3 + 3·2^4 ◗, ◖ 205 =  1 + 51·2^2 ◗]
  207 /3/ [◖ 1 ◗, ◖ 3 =  1 + 1·2^1 ◗, ◖ 13 =  1 + 3·2^2 ◗, ◖ 207 = -1 + 13·2^4 ◗]
  209 /3/ [◖ 1 ◗, ◖ 3 =  1 + 1·2^1 ◗, ◖ 13 =  1 + 3·2^2 ◗, ◖ 209 =  1 + 13·2^4 ◗]
  211 /3/ [◖ 1 ◗, ◖ 7 = -1 + 1·2^3 ◗, ◖ 105 = -7 + 7·2^4 ◗, ◖ 211 =  1 + 105·2^1 ◗]
  213 /3/ [◖ 1 ◗, ◖ 7 = -1 + 1·2^3 ◗, ◖ 55 = -1 + 7·2^3 ◗, ◖ 213 = -7 + 55·2^2 ◗]
  215 /3/ [◖ 1 ◗, ◖ 7 = -1 + 1·2^3 ◗, ◖ 27 = -1 + 7·2^2 ◗, ◖ 215 = -1 + 27·2^3 ◗]
  217 /2/ [◖ 1 ◗, ◖ 7 = -1 + 1·2^3 ◗, ◖ 217 = -7 + 7·2^5 ◗]
  219 /3/ [◖ 1 ◗, ◖ 7 = -1 + 1·2^3 ◗, ◖ 55 = -1 + 7·2^3 ◗, ◖ 219 = -1 + 55·2^2 ◗]
  221 /3/ [◖ 1 ◗, ◖ 7 = -1 + 1·2^3 ◗, ◖ 55 = -1 + 7·2^3 ◗, ◖ 221 =  1 + 55·2^2 ◗]
  223 /2/ [◖ 1 ◗, ◖ 7 = -1 + 1·2^3 ◗, ◖ 223 = -1 + 7·2^5 ◗]
  225 /2/ [◖ 1 ◗, ◖ 7 = -1 + 1·2^3 ◗, ◖ 225 =  1 + 7·2^5 ◗]
  227 /3/ [◖ 1 ◗, ◖ 7 = -1 + 1·2^3 ◗, ◖ 57 =  1 + 7·2^3 ◗, ◖ 227 = -1 + 57·2^2 ◗]
  229 /3/ [◖ 1 ◗, ◖ 7 = -1 + 1·2^3 ◗, ◖ 57 =  1 + 7·2^3 ◗, ◖ 229 =  1 + 57·2^2 ◗]
  231 /2/ [◖ 1 ◗, ◖ 7 = -1 + 1·2^3 ◗, ◖ 231 =  7 + 7·2^5 ◗]
  233 /3/ [◖ 1 ◗, ◖ 7 = -1 + 1·2^3 ◗, ◖ 29 =  1 + 7·2^2 ◗, ◖ 233 =  1 + 29·2^3 ◗]
  235 /3/ [◖ 1 ◗, ◖ 15 = -1 + 1·2^4 ◗, ◖ 59 = -1 + 15·2^2 ◗, ◖ 235 = -1 + 59·2^2 ◗]
  237 /3/ [◖ 1 ◗, ◖ 15 = -1 + 1·2^4 ◗, ◖ 59 = -1 + 15·2^2 ◗, ◖ 237 =  1 + 59·2^2 ◗]
  239 /2/ [◖ 1 ◗, ◖ 15 = -1 + 1·2^4 ◗, ◖ 239 = -1 + 15·2^4 ◗]
  241 /2/ [◖ 1 ◗, ◖ 15 = -1 + 1·2^4 ◗, ◖ 241 =  1 + 15·2^4 ◗]
  243 /3/ [◖ 1 ◗, ◖ 15 = -1 + 1·2^4 ◗, ◖ 61 =  1 + 15·2^2 ◗, ◖ 243 = -1 + 61·2^2 ◗]
  245 /3/ [◖ 1 ◗, ◖ 15 = -1 + 1·2^4 ◗, ◖ 61 =  1 + 15·2^2 ◗, ◖ 245 =  1 + 61·2^2 ◗]
  247 /2/ [◖ 1 ◗, ◖ 31 = -1 + 1·2^5 ◗, ◖ 247 = -1 + 31·2^3 ◗]
  249 /2/ [◖ 1 ◗, ◖ 31 = -1 + 1·2^5 ◗, ◖ 249 =  1 + 31·2^3 ◗]
  251 /2/ [◖ 1 ◗, ◖ 63 = -1 + 1·2^6 ◗, ◖ 251 = -1 + 63·2^2 ◗]
  253 /2/ [◖ 1 ◗, ◖ 63 = -1 + 1·2^6 ◗, ◖ 253 =  1 + 63·2^2 ◗]
  255 /1/ [◖ 1 ◗, ◖ 255 = -1 + 1·2^8 ◗]
".
Definition v2_4 : string := "  257 /1/ [◖ 1 ◗, ◖ 257 =  1 + 1·2^8 ◗]
  259 /2/ [◖ 1 ◗, ◖ 65 =  1 + 1·2^6 ◗, ◖ 259 = -1 + 65·2^2 ◗]
  261 /2/ [◖ 1 ◗, ◖ 65 =  1 + 1·2^6 ◗, ◖ 261 =  1 + 65·2^2 ◗]
  263 /2/ [◖ 1 ◗, ◖ 33 =  1 + 1·2^5 ◗, ◖ 263 = -1 + 33·2^3 ◗]
  265 /2/ [◖ 1 ◗, ◖ 33 =  1 + 1·2^5 ◗, ◖ 265 =  1 + 33·2^3 ◗]
  267 /3/ [◖ 1 ◗, ◖ 17 =  1 + 1·2^4 ◗, ◖ 67 = -1 + 17·2^2 ◗, ◖ 267 = -1 + 67·2^2 ◗]
  269 /3/ [◖ 1 ◗, ◖ 17 =  1 + 1·2^4 ◗, ◖ 67 = -1 + 17·2^2 ◗, ◖ 269 =  1 + 67·2^2 ◗]
  271 /2/ [◖ 1 ◗, ◖ 17 =  1 + 1·2^4 ◗, ◖ 271 = -1 + 17·2^4 ◗]
  273 /2/ [◖ 1 ◗, ◖ 17 =  1 + 1·2^4 ◗, ◖ 273 =  1 + 17·2^4 ◗]
  275 /3/ [◖ 1 ◗, ◖ 17 =  1 + 1·2^4 ◗, ◖ 69 =  1 + 17·2^2 ◗, ◖ 275 = -1 + 69·2^2 ◗]
  277 /3/ [◖ 1 ◗, ◖ 17 =  1 + 1·2^4 ◗, ◖ 69 =  1 + 17·2^2 ◗, ◖ 277 =  1 + 69·2^2 ◗]
  279 /2/ [◖ 1 ◗, ◖ 9 =  1 + 1·2^3 ◗, ◖ 279 = -9 + 9·2^5 ◗]
  281 /3/ [◖ 1 ◗, ◖ 9 =  1 + 1·2^3 ◗, ◖ 35 = -1 + 9·2^2 ◗, ◖ 281 =  1 + 35·2^3 ◗]
  283 /3/ [◖ 1 ◗, ◖ 9 =  1 + 1·2^3 ◗, ◖ 71 = -1 + 9·2^3 ◗, ◖ 283 = -1 + 71·2^2 ◗]
  285 /3/ [◖ 1 ◗, ◖ 9 =  1 + 1·2^3 ◗, ◖ 71 = -1 + 9·2^3 ◗, ◖ 285 =  1 + 71·2^2 ◗]
  287 /2/ [◖ 1 ◗, ◖ 9 =  1 + 1·2^3 ◗, ◖ 287 = -1 + 9·2^5 ◗]
  289 /2/ [◖ 1 ◗, ◖ 9 =  1 + 1·2^3 ◗, ◖ 289 =  1 + 9·2^5 ◗]
  291 /3/ [◖ 1 ◗, ◖ 9 =  1 + 1·2^3 ◗, ◖ 73 =  1 + 9·2^3 ◗, ◖ 291 = -1 + 73·2^2 ◗]
  293 /3/ [◖ 1 ◗, ◖ 9 =  1 + 1·2^3 ◗, ◖ 73 =  1 + 9·2^3 ◗, ◖ 293 =  1 + 73·2^2 ◗]
  295 /3/ [◖ 1 ◗, ◖ 9 =  1 + 1·2^3 ◗, ◖ 37 =  1 + 9·2^2 ◗, ◖ 295 = -1 + 37·2^3 ◗]
  297 /2/ [◖ 1 ◗, ◖ 9 =  1 + 1·2^3 ◗, ◖ 297 =  9 + 9·2^5 ◗]
  299 /3/ [◖ 1 ◗, ◖ 5 =  1 + 1·2^2 ◗, ◖ 75 = -5 + 5·2^4 ◗, ◖ 299 = -1 + 75·2^2 ◗]
  301 /3/ [◖ 1 ◗, ◖ 5 =  1 + 1·2^2 ◗, ◖ 75 = -5 + 5·2^4 ◗, ◖ 301 =  1 + 75·2^2 ◗]
  303 /3/ [◖ 1 ◗, ◖ 5 =  1 + 1·2^2 ◗, ◖ 19 = -1 + 5·2^2 ◗, ◖ 303 = -1 + 19·2^4 ◗]
  305 /3/ [◖ 1 ◗, ◖ 5 =  1 + 1·2^2 ◗, ◖ 19 = -1 + 5·2^2 ◗, ◖ 305 =  1 + 19·2^4 ◗]
  307 /3/ [◖ 1 ◗, ◖ 9 =  1 + 1·2^3 ◗, ◖ 153 =  9 + 9·2^4 ◗, ◖ 307 =  1 + 153·2^1 ◗]
  309 /3/ [◖ 1 ◗, ◖ 5 =  1 + 1·2^2 ◗, ◖ 155 = -5 + 5·2^5 ◗, ◖ 309 = -1 + 155·2^1 ◗]
  311 /3/ [◖ 1 ◗, ◖ 5 =  1 + 1·2^2 ◗, ◖ 39 = -1 + 5·2^3 ◗, ◖ 311 = -1 + 39·2^3 ◗]
  313 /3/ [◖ 1 ◗, ◖ 5 =  1 + 1·2^2 ◗, ◖ 39 = -1 + 5·2^3 ◗, ◖ 313 =  1 + 39·2^3 ◗]
  315 /2/ [◖ 1 ◗, ◖ 5 =  1 + 1·2^2 ◗, ◖ 315 = -5 + 5·2^6 ◗]
  317 /3/ [◖ 1 ◗, ◖ 5 =  1 + 1·2^2 ◗, ◖ 79 = -1 + 5·2^4 ◗, ◖ 317 =  1 + 79·2^2 ◗]
  319 /2/ [◖ 1 ◗, ◖ 5 =  1 + 1·2^2 ◗, ◖ 319 = -1 + 5·2^6 ◗]
".
Definition v2_5 : string := "  321 /2/ [◖ 1 ◗, ◖ 5 =  1 + 1·2^2 ◗, ◖ 321 =  1 + 5·2^6 ◗]
  323 /3/ [◖ 1 ◗, ◖ 5 =  1 + 1·2^2 ◗, ◖ 81 =  1 + 5·2^4 ◗, ◖ 323 = -1 + 81·2^2 ◗]
  325 /2/ [◖ 1 ◗, ◖ 5 =  1 + 1·2^2 ◗, ◖ 325 =  5 + 5·2^6 ◗]
  327 /3/ [◖ 1 ◗, ◖ 5 =  1 + 1·2^2 ◗, ◖ 41 =  1 + 5·2^3 ◗, ◖ 327 = -1 + 41·2^3 ◗]
  329 /3/ [◖ 1 ◗, ◖ 5 =  1 + 1·2^2 ◗, ◖ 41 =  1 + 5·2^3 ◗, ◖ 329 =  1 + 41·2^3 ◗]
  331 /3/ [◖ 1 ◗, ◖ 5 =  1 + 1·2^2 ◗, ◖ 165 =  5 + 5·2^5 ◗, ◖ 331 =  1 + 165·2^1 ◗]
  333 /3/ [◖ 1 ◗, ◖ 5 =  1 + 1·2^2 ◗, ◖ 41 =  1 + 5·2^3 ◗, ◖ 333 =  5 + 41·2^3 ◗]
  335 /3/ [◖ 1 ◗, ◖ 5 =  1 + 1·2^2 ◗, ◖ 21 =  1 + 5·2^2 ◗, ◖ 335 = -1 + 21·2^4 ◗]
  337 /3/ [◖ 1 ◗, ◖ 5 =  1 + 1·2^2 ◗, ◖ 21 =  1 + 5·2^2 ◗, ◖ 337 =  1 + 21·2^4 ◗]
  339 /3/ [◖ 1 ◗, ◖ 5 =  1 + 1·2^2 ◗, ◖ 85 =  5 + 5·2^4 ◗, ◖ 339 = -1 + 85·2^2 ◗]
  341 /3/ [◖ 1 ◗, ◖ 5 =  1 + 1·2^2 ◗, ◖ 85 =  5 + 5·2^4 ◗, ◖ 341 =  1 + 85·2^2 ◗]
  343 /3/ [◖ 1 ◗, ◖ 3 =  1 + 1·2^1 ◗, ◖ 49 =  1 + 3·2^4 ◗, ◖ 343 = -49 + 49·2^3 ◗]
  345 /3/ [◖ 1 ◗, ◖ 7 = -1 + 1·2^3 ◗, ◖ 217 = -7 + 7·2^5 ◗, ◖ 345 =  217 + 1·2^7 ◗]
  347 /3/ [◖ 1 ◗, ◖ 5 =  1 + 1·2^2 ◗, ◖ 165 =  5 + 5·2^5 ◗, ◖ 347 = -165 + 1·2^9 ◗]
  349 /3/ [◖ 1 ◗, ◖ 3 =  1 + 1·2^1 ◗, ◖ 11 = -1 + 3·2^2 ◗, ◖ 349 = -3 + 11·2^5 ◗]
  351 /3/ [◖ 1 ◗, ◖ 3 =  1 + 1·2^1 ◗, ◖ 11 = -1 + 3·2^2 ◗, ◖ 351 = -1 + 11·2^5 ◗]
  353 /3/ [◖ 1 ◗, ◖ 3 =  1 + 1·2^1 ◗, ◖ 11 = -1 + 3·2^2 ◗, ◖ 353 =  1 + 11·2^5 ◗]
  355 /3/ [◖ 1 ◗, ◖ 3 =  1 + 1·2^1 ◗, ◖ 11 = -1 + 3·2^2 ◗, ◖ 355 =  3 + 11·2^5 ◗]
  357 /3/ [◖ 1 ◗, ◖ 3 =  1 + 1·2^1 ◗, ◖ 45 = -3 + 3·2^4 ◗, ◖ 357 = -3 + 45·2^3 ◗]
  359 /3/ [◖ 1 ◗, ◖ 3 =  1 + 1·2^1 ◗, ◖ 45 = -3 + 3·2^4 ◗, ◖ 359 = -1 + 45·2^3 ◗]
  361 /3/ [◖ 1 ◗, ◖ 3 =  1 + 1·2^1 ◗, ◖ 45 = -3 + 3·2^4 ◗, ◖ 361 =  1 + 45·2^3 ◗]
  363 /3/ [◖ 1 ◗, ◖ 3 =  1 + 1·2^1 ◗, ◖ 45 = -3 + 3·2^4 ◗, ◖ 363 =  3 + 45·2^3 ◗]
  365 /3/ [◖ 1 ◗, ◖ 3 =  1 + 1·2^1 ◗, ◖ 23 = -1 + 3·2^3 ◗, ◖ 365 = -3 + 23·2^4 ◗]
  367 /3/ [◖ 1 ◗, ◖ 3 =  1 + 1·2^1 ◗, ◖ 23 = -1 + 3·2^3 ◗, ◖ 367 = -1 + 23·2^4 ◗]
  369 /3/ [◖ 1 ◗, ◖ 3 =  1 + 1·2^1 ◗, ◖ 23 = -1 + 3·2^3 ◗, ◖ 369 =  1 + 23·2^4 ◗]
  371 /3/ [◖ 1 ◗, ◖ 3 =  1 + 1·2^1 ◗, ◖ 93 = -3 + 3·2^5 ◗, ◖ 371 = -1 + 93·2^2 ◗]
  373 /3/ [◖ 1 ◗, ◖ 3 =  1 + 1·2^1 ◗, ◖ 93 = -3 + 3·2^5 ◗, ◖ 373 =  1 + 93·2^2 ◗]
  375 /3/ [◖ 1 ◗, ◖ 3 =  1 + 1·2^1 ◗, ◖ 47 = -1 + 3·2^4 ◗, ◖ 375 = -1 + 47·2^3 ◗]
  377 /3/ [◖ 1 ◗, ◖ 3 =  1 + 1·2^1 ◗, ◖ 47 = -1 + 3·2^4 ◗, ◖ 377 =  1 + 47·2^3 ◗]
  379 /3/ [◖ 1 ◗, ◖ 3 =  1 + 1·2^1 ◗, ◖ 95 = -1 + 3·2^5 ◗, ◖ 379 = -1 + 95·2^2 ◗]
  381 /2/ [◖ 1 ◗, ◖ 3 =  1 + 1·2^1 ◗, ◖ 381 = -3 + 3·2^7 ◗]
  383 /2/ [◖ 1 ◗, ◖ 3 =  1 + 1·2^1 ◗, ◖ 383 = -1 + 3·2^7 ◗]
".
Definition v2_6 : string := "  385 /2/ [◖ 1 ◗, ◖ 3 =  1 + 1·2^1 ◗, ◖ 385 =  1 + 3·2^7 ◗]
  387 /2/ [◖ 1 ◗, ◖ 3 =  1 + 1·2^1 ◗, ◖ 387 =  3 + 3·2^7 ◗]
  389 /3/ [◖ 1 ◗, ◖ 3 =  1 + 1·2^1 ◗, ◖ 97 =  1 + 3·2^5 ◗, ◖ 389 =  1 + 97·2^2 ◗]
  391 /3/ [◖ 1 ◗, ◖ 3 =  1 + 1·2^1 ◗, ◖ 49 =  1 + 3·2^4 ◗, ◖ 391 = -1 + 49·2^3 ◗]
  393 /3/ [◖ 1 ◗, ◖ 3 =  1 + 1·2^1 ◗, ◖ 49 =  1 + 3·2^4 ◗, ◖ 393 =  1 + 49·2^3 ◗]
  395 /3/ [◖ 1 ◗, ◖ 3 =  1 + 1·2^1 ◗, ◖ 99 =  3 + 3·2^5 ◗, ◖ 395 = -1 + 99·2^2 ◗]
  397 /3/ [◖ 1 ◗, ◖ 3 =  1 + 1·2^1 ◗, ◖ 99 =  3 + 3·2^5 ◗, ◖ 397 =  1 + 99·2^2 ◗]
  399 /3/ [◖ 1 ◗, ◖ 3 =  1 + 1·2^1 ◗, ◖ 25 =  1 + 3·2^3 ◗, ◖ 399 = -1 + 25·2^4 ◗]
  401 /3/ [◖ 1 ◗, ◖ 3 =  1 + 1·2^1 ◗, ◖ 25 =  1 + 3·2^3 ◗, ◖ 401 =  1 + 25·2^4 ◗]
  403 /3/ [◖ 1 ◗, ◖ 3 =  1 + 1·2^1 ◗, ◖ 25 =  1 + 3·2^3 ◗, ◖ 403 =  3 + 25·2^4 ◗]
  405 /3/ [◖ 1 ◗, ◖ 3 =  1 + 1·2^1 ◗, ◖ 51 =  3 + 3·2^4 ◗, ◖ 405 = -3 + 51·2^3 ◗]
  407 /3/ [◖ 1 ◗, ◖ 3 =  1 + 1·2^1 ◗, ◖ 51 =  3 + 3·2^4 ◗, ◖ 407 = -1 + 51·2^3 ◗]
  409 /3/ [◖ 1 ◗, ◖ 3 =  1 + 1·2^1 ◗, ◖ 51 =  3 + 3·2^4 ◗, ◖ 409 =  1 + 51·2^3 ◗]
  411 /3/ [◖ 1 ◗, ◖ 3 =  1 + 1·2^1 ◗, ◖ 51 =  3 + 3·2^4 ◗, ◖ 411 =  3 + 51·2^3 ◗]
  413 /3/ [◖ 1 ◗, ◖ 3 =  1 + 1·2^1 ◗, ◖ 13 =  1 + 3·2^2 ◗, ◖ 413 = -3 + 13·2^5 ◗]
  415 /3/ [◖ 1 ◗, ◖ 3 =  1 + 1·2^1 ◗, ◖ 13 =  1 + 3·2^2 ◗, ◖ 415 = -1 + 13·2^5 ◗]
  417 /3/ [◖ 1 ◗, ◖ 3 =  1 + 1·2^1 ◗, ◖ 13 =  1 + 3·2^2 ◗, ◖ 417 =  1 + 13·2^5 ◗]
  419 /3/ [◖ 1 ◗, ◖ 7 = -1 + 1·2^3 ◗, ◖ 105 = -7 + 7·2^4 ◗, ◖ 419 = -1 + 105·2^2 ◗]
  421 /3/ [◖ 1 ◗, ◖ 7 = -1 + 1·2^3 ◗, ◖ 105 = -7 + 7·2^4 ◗, ◖ 421 =  1 + 105·2^2 ◗]
  423 /3/ [◖ 1 ◗, ◖ 3 =  1 + 1·2^1 ◗, ◖ 47 = -1 + 3·2^4 ◗, ◖ 423 =  47 + 47·2^3 ◗]
  425 /3/ [◖ 1 ◗, ◖ 7 = -1 + 1·2^3 ◗, ◖ 27 = -1 + 7·2^2 ◗, ◖ 425 = -7 + 27·2^4 ◗]
  427 /3/ [◖ 1 ◗, ◖ 7 = -1 + 1·2^3 ◗, ◖ 105 = -7 + 7·2^4 ◗, ◖ 427 =  7 + 105·2^2 ◗]
  429 /3/ [◖ 1 ◗, ◖ 3 =  1 + 1·2^1 ◗, ◖ 13 =  1 + 3·2^2 ◗, ◖ 429 =  13 + 13·2^5 ◗]
  431 /3/ [◖ 1 ◗, ◖ 7 = -1 + 1·2^3 ◗, ◖ 27 = -1 + 7·2^2 ◗, ◖ 431 = -1 + 27·2^4 ◗]
  433 /3/ [◖ 1 ◗, ◖ 7 = -1 + 1·2^3 ◗, ◖ 27 = -1 + 7·2^2 ◗, ◖ 433 =  1 + 27·2^4 ◗]
  435 /3/ [◖ 1 ◗, ◖ 7 = -1 + 1·2^3 ◗, ◖ 217 = -7 + 7·2^5 ◗, ◖ 435 =  1 + 217·2^1 ◗]
  437 /3/ [◖ 1 ◗, ◖ 7 = -1 + 1·2^3 ◗, ◖ 111 = -1 + 7·2^4 ◗, ◖ 437 = -7 + 111·2^2 ◗]
  439 /3/ [◖ 1 ◗, ◖ 7 = -1 + 1·2^3 ◗, ◖ 55 = -1 + 7·2^3 ◗, ◖ 439 = -1 + 55·2^3 ◗]
  441 /2/ [◖ 1 ◗, ◖ 7 = -1 + 1·2^3 ◗, ◖ 441 = -7 + 7·2^6 ◗]
  443 /3/ [◖ 1 ◗, ◖ 7 = -1 + 1·2^3 ◗, ◖ 111 = -1 + 7·2^4 ◗, ◖ 443 = -1 + 111·2^2 ◗]
  445 /3/ [◖ 1 ◗, ◖ 7 = -1 + 1·2^3 ◗, ◖ 111 = -1 + 7·2^4 ◗, ◖ 445 =  1 + 111·2^2 ◗]
  447 /2/ [◖ 1 ◗, ◖ 7 = -1 + 1·2^3 ◗, ◖ 447 = -1 + 7·2^6 ◗]
".
Definition v2_7 : string := "  449 /2/ [◖ 1 ◗, ◖ 7 = -1 + 1·2^3 ◗, ◖ 449 =  1 + 7·2^6 ◗]
  451 /3/ [◖ 1 ◗, ◖ 7 = -1 + 1·2^3 ◗, ◖ 113 =  1 + 7·2^4 ◗, ◖ 451 = -1 + 113·2^2 ◗]
  453 /3/ [◖ 1 ◗, ◖ 7 = -1 + 1·2^3 ◗, ◖ 113 =  1 + 7·2^4 ◗, ◖ 453 =  1 + 113·2^2 ◗]
  455 /2/ [◖ 1 ◗, ◖ 7 = -1 + 1·2^3 ◗, ◖ 455 =  7 + 7·2^6 ◗]
  457 /3/ [◖ 1 ◗, ◖ 7 = -1 + 1·2^3 ◗, ◖ 57 =  1 + 7·2^3 ◗, ◖ 457 =  1 + 57·2^3 ◗]
  459 /3/ [◖ 1 ◗, ◖ 7 = -1 + 1·2^3 ◗, ◖ 113 =  1 + 7·2^4 ◗, ◖ 459 =  7 + 113·2^2 ◗]
  461 /3/ [◖ 1 ◗, ◖ 7 = -1 + 1·2^3 ◗, ◖ 231 =  7 + 7·2^5 ◗, ◖ 461 = -1 + 231·2^1 ◗]
  463 /3/ [◖ 1 ◗, ◖ 7 = -1 + 1·2^3 ◗, ◖ 29 =  1 + 7·2^2 ◗, ◖ 463 = -1 + 29·2^4 ◗]
  465 /2/ [◖ 1 ◗, ◖ 15 = -1 + 1·2^4 ◗, ◖ 465 = -15 + 15·2^5 ◗]
  467 /3/ [◖ 1 ◗, ◖ 15 = -1 + 1·2^4 ◗, ◖ 241 =  1 + 15·2^4 ◗, ◖ 467 = -15 + 241·2^1 ◗]
  469 /3/ [◖ 1 ◗, ◖ 7 = -1 + 1·2^3 ◗, ◖ 231 =  7 + 7·2^5 ◗, ◖ 469 =  7 + 231·2^1 ◗]
  471 /3/ [◖ 1 ◗, ◖ 15 = -1 + 1·2^4 ◗, ◖ 59 = -1 + 15·2^2 ◗, ◖ 471 = -1 + 59·2^3 ◗]
  473 /3/ [◖ 1 ◗, ◖ 15 = -1 + 1·2^4 ◗, ◖ 59 = -1 + 15·2^2 ◗, ◖ 473 =  1 + 59·2^3 ◗]
  475 /3/ [◖ 1 ◗, ◖ 15 = -1 + 1·2^4 ◗, ◖ 119 = -1 + 15·2^3 ◗, ◖ 475 = -1 + 119·2^2 ◗]
  477 /3/ [◖ 1 ◗, ◖ 15 = -1 + 1·2^4 ◗, ◖ 119 = -1 + 15·2^3 ◗, ◖ 477 =  1 + 119·2^2 ◗]
  479 /2/ [◖ 1 ◗, ◖ 15 = -1 + 1·2^4 ◗, ◖ 479 = -1 + 15·2^5 ◗]
  481 /2/ [◖ 1 ◗, ◖ 15 = -1 + 1·2^4 ◗, ◖ 481 =  1 + 15·2^5 ◗]
  483 /3/ [◖ 1 ◗, ◖ 15 = -1 + 1·2^4 ◗, ◖ 121 =  1 + 15·2^3 ◗, ◖ 483 = -1 + 121·2^2 ◗]
  485 /3/ [◖ 1 ◗, ◖ 15 = -1 + 1·2^4 ◗, ◖ 121 =  1 + 15·2^3 ◗, ◖ 485 =  1 + 121·2^2 ◗]
  487 /3/ [◖ 1 ◗, ◖ 15 = -1 + 1·2^4 ◗, ◖ 61 =  1 + 15·2^2 ◗, ◖ 487 = -1 + 61·2^3 ◗]
  489 /3/ [◖ 1 ◗, ◖ 15 = -1 + 1·2^4 ◗, ◖ 61 =  1 + 15·2^2 ◗, ◖ 489 =  1 + 61·2^3 ◗]
  491 /3/ [◖ 1 ◗, ◖ 31 = -1 + 1·2^5 ◗, ◖ 123 = -1 + 31·2^2 ◗, ◖ 491 = -1 + 123·2^2 ◗]
  493 /3/ [◖ 1 ◗, ◖ 31 = -1 + 1·2^5 ◗, ◖ 123 = -1 + 31·2^2 ◗, ◖ 493 =  1 + 123·2^2 ◗]
  495 /2/ [◖ 1 ◗, ◖ 31 = -1 + 1·2^5 ◗, ◖ 495 = -1 + 31·2^4 ◗]
  497 /2/ [◖ 1 ◗, ◖ 31 = -1 + 1·2^5 ◗, ◖ 497 =  1 + 31·2^4 ◗]
  499 /3/ [◖ 1 ◗, ◖ 31 = -1 + 1·2^5 ◗, ◖ 125 =  1 + 31·2^2 ◗, ◖ 499 = -1 + 125·2^2 ◗]
  501 /3/ [◖ 1 ◗, ◖ 31 = -1 + 1·2^5 ◗, ◖ 125 =  1 + 31·2^2 ◗, ◖ 501 =  1 + 125·2^2 ◗]
  503 /2/ [◖ 1 ◗, ◖ 63 = -1 + 1·2^6 ◗, ◖ 503 = -1 + 63·2^3 ◗]
  505 /2/ [◖ 1 ◗, ◖ 63 = -1 + 1·2^6 ◗, ◖ 505 =  1 + 63·2^3 ◗]
  507 /2/ [◖ 1 ◗, ◖ 127 = -1 + 1·2^7 ◗, ◖ 507 = -1 + 127·2^2 ◗]
  509 /2/ [◖ 1 ◗, ◖ 127 = -1 + 1·2^7 ◗, ◖ 509 =  1 + 127·2^2 ◗]
  511 /1/ [◖ 1 ◗, ◖ 511 = -1 + 1·2^9 ◗]
".
Definition v2_8 : string := "  513 /1/ [◖ 1 ◗, ◖ 513 =  1 + 1·2^9 ◗]
  515 /2/ [◖ 1 ◗, ◖ 129 =  1 + 1·2^7 ◗, ◖ 515 = -1 + 129·2^2 ◗]
  517 /2/ [◖ 1 ◗, ◖ 129 =  1 + 1·2^7 ◗, ◖ 517 =  1 + 129·2^2 ◗]
  519 /2/ [◖ 1 ◗, ◖ 65 =  1 + 1·2^6 ◗, ◖ 519 = -1 + 65·2^3 ◗]
  521 /2/ [◖ 1 ◗, ◖ 65 =  1 + 1·2^6 ◗, ◖ 521 =  1 + 65·2^3 ◗]
  523 /3/ [◖ 1 ◗, ◖ 33 =  1 + 1·2^5 ◗, ◖ 131 = -1 + 33·2^2 ◗, ◖ 523 = -1 + 131·2^2 ◗]
  525 /3/ [◖ 1 ◗, ◖ 33 =  1 + 1·2^5 ◗, ◖ 131 = -1 + 33·2^2 ◗, ◖ 525 =  1 + 131·2^2 ◗]
  527 /2/ [◖ 1 ◗, ◖ 33 =  1 + 1·2^5 ◗, ◖ 527 = -1 + 33·2^4 ◗]
  529 /2/ [◖ 1 ◗, ◖ 33 =  1 + 1·2^5 ◗, ◖ 529 =  1 + 33·2^4 ◗]
  531 /3/ [◖ 1 ◗, ◖ 33 =  1 + 1·2^5 ◗, ◖ 133 =  1 + 33·2^2 ◗, ◖ 531 = -1 + 133·2^2 ◗]
  533 /3/ [◖ 1 ◗, ◖ 33 =  1 + 1·2^5 ◗, ◖ 133 =  1 + 33·2^2 ◗, ◖ 533 =  1 + 133·2^2 ◗]
  535 /3/ [◖ 1 ◗, ◖ 17 =  1 + 1·2^4 ◗, ◖ 67 = -1 + 17·2^2 ◗, ◖ 535 = -1 + 67·2^3 ◗]
  537 /3/ [◖ 1 ◗, ◖ 17 =  1 + 1·2^4 ◗, ◖ 67 = -1 + 17·2^2 ◗, ◖ 537 =  1 + 67·2^3 ◗]
  539 /3/ [◖ 1 ◗, ◖ 17 =  1 + 1·2^4 ◗, ◖ 135 = -1 + 17·2^3 ◗, ◖ 539 = -1 + 135·2^2 ◗]
  541 /3/ [◖ 1 ◗, ◖ 17 =  1 + 1·2^4 ◗, ◖ 135 = -1 + 17·2^3 ◗, ◖ 541 =  1 + 135·2^2 ◗]
  543 /2/ [◖ 1 ◗, ◖ 17 =  1 + 1·2^4 ◗, ◖ 543 = -1 + 17·2^5 ◗]
  545 /2/ [◖ 1 ◗, ◖ 17 =  1 + 1·2^4 ◗, ◖ 545 =  1 + 17·2^5 ◗]
  547 /3/ [◖ 1 ◗, ◖ 17 =  1 + 1·2^4 ◗, ◖ 137 =  1 + 17·2^3 ◗, ◖ 547 = -1 + 137·2^2 ◗]
  549 /3/ [◖ 1 ◗, ◖ 17 =  1 + 1·2^4 ◗, ◖ 137 =  1 + 17·2^3 ◗, ◖ 549 =  1 + 137·2^2 ◗]
  551 /3/ [◖ 1 ◗, ◖ 17 =  1 + 1·2^4 ◗, ◖ 69 =  1 + 17·2^2 ◗, ◖ 551 = -1 + 69·2^3 ◗]
  553 /3/ [◖ 1 ◗, ◖ 17 =  1 + 1·2^4 ◗, ◖ 69 =  1 + 17·2^2 ◗, ◖ 553 =  1 + 69·2^3 ◗]
  555 /3/ [◖ 1 ◗, ◖ 9 =  1 + 1·2^3 ◗, ◖ 37 =  1 + 9·2^2 ◗, ◖ 555 = -37 + 37·2^4 ◗]
  557 /3/ [◖ 1 ◗, ◖ 9 =  1 + 1·2^3 ◗, ◖ 279 = -9 + 9·2^5 ◗, ◖ 557 = -1 + 279·2^1 ◗]
  559 /3/ [◖ 1 ◗, ◖ 9 =  1 + 1·2^3 ◗, ◖ 35 = -1 + 9·2^2 ◗, ◖ 559 = -1 + 35·2^4 ◗]
  561 /2/ [◖ 1 ◗, ◖ 17 =  1 + 1·2^4 ◗, ◖ 561 =  17 + 17·2^5 ◗]
  563 /3/ [◖ 1 ◗, ◖ 9 =  1 + 1·2^3 ◗, ◖ 143 = -1 + 9·2^4 ◗, ◖ 563 = -9 + 143·2^2 ◗]
  565 /3/ [◖ 1 ◗, ◖ 9 =  1 + 1·2^3 ◗, ◖ 287 = -1 + 9·2^5 ◗, ◖ 565 = -9 + 287·2^1 ◗]
  567 /2/ [◖ 1 ◗, ◖ 9 =  1 + 1·2^3 ◗, ◖ 567 = -9 + 9·2^6 ◗]
  569 /3/ [◖ 1 ◗, ◖ 9 =  1 + 1·2^3 ◗, ◖ 71 = -1 + 9·2^3 ◗, ◖ 569 =  1 + 71·2^3 ◗]
  571 /3/ [◖ 1 ◗, ◖ 9 =  1 + 1·2^3 ◗, ◖ 143 = -1 + 9·2^4 ◗, ◖ 571 = -1 + 143·2^2 ◗]
  573 /3/ [◖ 1 ◗, ◖ 9 =  1 + 1·2^3 ◗, ◖ 143 = -1 + 9·2^4 ◗, ◖ 573 =  1 + 143·2^2 ◗]
  575 /2/ [◖ 1 ◗, ◖ 9 =  1 + 1·2^3 ◗, ◖ 575 = -1 + 9·2^6 ◗]
".
Definition v2_9 : string := "  577 /2/ [◖ 1 ◗, ◖ 9 =  1 + 1·2^3 ◗, ◖ 577 =  1 + 9·2^6 ◗]
  579 /3/ [◖ 1 ◗, ◖ 9 =  1 + 1·2^3 ◗, ◖ 145 =  1 + 9·2^4 ◗, ◖ 579 = -1 + 145·2^2 ◗]
  581 /3/ [◖ 1 ◗, ◖ 9 =  1 + 1·2^3 ◗, ◖ 145 =  1 + 9·2^4 ◗, ◖ 581 =  1 + 145·2^2 ◗]
  583 /3/ [◖ 1 ◗, ◖ 9 =  1 + 1·2^3 ◗, ◖ 73 =  1 + 9·2^3 ◗, ◖ 583 = -1 + 73·2^3 ◗]
  585 /2/ [◖ 1 ◗, ◖ 9 =  1 + 1·2^3 ◗, ◖ 585 =  9 + 9·2^6 ◗]
  587 /3/ [◖ 1 ◗, ◖ 9 =  1 + 1·2^3 ◗, ◖ 289 =  1 + 9·2^5 ◗, ◖ 587 =  9 + 289·2^1 ◗]
  589 /3/ [◖ 1 ◗, ◖ 9 =  1 + 1·2^3 ◗, ◖ 145 =  1 + 9·2^4 ◗, ◖ 589 =  9 + 145·2^2 ◗]
  591 /3/ [◖ 1 ◗, ◖ 9 =  1 + 1·2^3 ◗, ◖ 37 =  1 + 9·2^2 ◗, ◖ 591 = -1 + 37·2^4 ◗]
  593 /3/ [◖ 1 ◗, ◖ 9 =  1 + 1·2^3 ◗, ◖ 37 =  1 + 9·2^2 ◗, ◖ 593 =  1 + 37·2^4 ◗]
  595 /3/ [◖ 1 ◗, ◖ 9 =  1 + 1·2^3 ◗, ◖ 297 =  9 + 9·2^5 ◗, ◖ 595 =  1 + 297·2^1 ◗]
  597 /3/ [◖ 1 ◗, ◖ 5 =  1 + 1·2^2 ◗, ◖ 85 =  5 + 5·2^4 ◗, ◖ 597 =  85 + 1·2^9 ◗]
  599 /3/ [◖ 1 ◗, ◖ 5 =  1 + 1·2^2 ◗, ◖ 75 = -5 + 5·2^4 ◗, ◖ 599 = -1 + 75·2^3 ◗]
  601 /3/ [◖ 1 ◗, ◖ 5 =  1 + 1·2^2 ◗, ◖ 75 = -5 + 5·2^4 ◗, ◖ 601 =  1 + 75·2^3 ◗]
  603 /3/ [◖ 1 ◗, ◖ 5 =  1 + 1·2^2 ◗, ◖ 19 = -1 + 5·2^2 ◗, ◖ 603 = -5 + 19·2^5 ◗]
  605 /3/ [◖ 1 ◗, ◖ 5 =  1 + 1·2^2 ◗, ◖ 75 = -5 + 5·2^4 ◗, ◖ 605 =  5 + 75·2^3 ◗]
  607 /3/ [◖ 1 ◗, ◖ 5 =  1 + 1·2^2 ◗, ◖ 19 = -1 + 5·2^2 ◗, ◖ 607 = -1 + 19·2^5 ◗]
  609 /3/ [◖ 1 ◗, ◖ 5 =  1 + 1·2^2 ◗, ◖ 19 = -1 + 5·2^2 ◗, ◖ 609 =  1 + 19·2^5 ◗]
  611 /3/ [◖ 1 ◗, ◖ 9 =  1 + 1·2^3 ◗, ◖ 153 =  9 + 9·2^4 ◗, ◖ 611 = -1 + 153·2^2 ◗]
  613 /3/ [◖ 1 ◗, ◖ 9 =  1 + 1·2^3 ◗, ◖ 153 =  9 + 9·2^4 ◗, ◖ 613 =  1 + 153·2^2 ◗]
  615 /3/ [◖ 1 ◗, ◖ 5 =  1 + 1·2^2 ◗, ◖ 41 =  1 + 5·2^3 ◗, ◖ 615 = -41 + 41·2^4 ◗]
  617 /3/ [◖ 1 ◗, ◖ 9 =  1 + 1·2^3 ◗, ◖ 585 =  9 + 9·2^6 ◗, ◖ 617 =  585 + 1·2^5 ◗]
  619 /3/ [◖ 1 ◗, ◖ 5 =  1 + 1·2^2 ◗, ◖ 155 = -5 + 5·2^5 ◗, ◖ 619 = -1 + 155·2^2 ◗]
  621 /3/ [◖ 1 ◗, ◖ 5 =  1 + 1·2^2 ◗, ◖ 155 = -5 + 5·2^5 ◗, ◖ 621 =  1 + 155·2^2 ◗]
  623 /3/ [◖ 1 ◗, ◖ 5 =  1 + 1·2^2 ◗, ◖ 39 = -1 + 5·2^3 ◗, ◖ 623 = -1 + 39·2^4 ◗]
  625 /3/ [◖ 1 ◗, ◖ 5 =  1 + 1·2^2 ◗, ◖ 39 = -1 + 5·2^3 ◗, ◖ 625 =  1 + 39·2^4 ◗]
  627 /3/ [◖ 1 ◗, ◖ 5 =  1 + 1·2^2 ◗, ◖ 79 = -1 + 5·2^4 ◗, ◖ 627 = -5 + 79·2^3 ◗]
  629 /3/ [◖ 1 ◗, ◖ 5 =  1 + 1·2^2 ◗, ◖ 315 = -5 + 5·2^6 ◗, ◖ 629 = -1 + 315·2^1 ◗]
  631 /3/ [◖ 1 ◗, ◖ 5 =  1 + 1·2^2 ◗, ◖ 79 = -1 + 5·2^4 ◗, ◖ 631 = -1 + 79·2^3 ◗]
  633 /3/ [◖ 1 ◗, ◖ 5 =  1 + 1·2^2 ◗, ◖ 79 = -1 + 5·2^4 ◗, ◖ 633 =  1 + 79·2^3 ◗]
  635 /2/ [◖ 1 ◗, ◖ 5 =  1 + 1·2^2 ◗, ◖ 635 = -5 + 5·2^7 ◗]
  637 /3/ [◖ 1 ◗, ◖ 5 =  1 + 1·2^2 ◗, ◖ 159 = -1 + 5·2^5 ◗, ◖ 637 =  1 + 159·2^2 ◗]
  639 /2/ [◖ 1 ◗, ◖ 5 =  1 + 1·2^2 ◗, ◖ 639 = -1 + 5·2^7 ◗]
".
Definition v2_10 : string := "  641 /2/ [◖ 1 ◗, ◖ 5 =  1 + 1·2^2 ◗, ◖ 641 =  1 + 5·2^7 ◗]
  643 /3/ [◖ 1 ◗, ◖ 5 =  1 + 1·2^2 ◗, ◖ 161 =  1 + 5·2^5 ◗, ◖ 643 = -1 + 161·2^2 ◗]
  645 /2/ [◖ 1 ◗, ◖ 5 =  1 + 1·2^2 ◗, ◖ 645 =  5 + 5·2^7 ◗]
  647 /3/ [◖ 1 ◗, ◖ 5 =  1 + 1·2^2 ◗, ◖ 81 =  1 + 5·2^4 ◗, ◖ 647 = -1 + 81·2^3 ◗]
  649 /3/ [◖ 1 ◗, ◖ 5 =  1 + 1·2^2 ◗, ◖ 81 =  1 + 5·2^4 ◗, ◖ 649 =  1 + 81·2^3 ◗]
  651 /3/ [◖ 1 ◗, ◖ 5 =  1 + 1·2^2 ◗, ◖ 325 =  5 + 5·2^6 ◗, ◖ 651 =  1 + 325·2^1 ◗]
  653 /3/ [◖ 1 ◗, ◖ 5 =  1 + 1·2^2 ◗, ◖ 81 =  1 + 5·2^4 ◗, ◖ 653 =  5 + 81·2^3 ◗]
  655 /3/ [◖ 1 ◗, ◖ 5 =  1 + 1·2^2 ◗, ◖ 41 =  1 + 5·2^3 ◗, ◖ 655 = -1 + 41·2^4 ◗]
  657 /3/ [◖ 1 ◗, ◖ 5 =  1 + 1·2^2 ◗, ◖ 41 =  1 + 5·2^3 ◗, ◖ 657 =  1 + 41·2^4 ◗]
  659 /3/ [◖ 1 ◗, ◖ 5 =  1 + 1·2^2 ◗, ◖ 165 =  5 + 5·2^5 ◗, ◖ 659 = -1 + 165·2^2 ◗]
  661 /3/ [◖ 1 ◗, ◖ 5 =  1 + 1·2^2 ◗, ◖ 165 =  5 + 5·2^5 ◗, ◖ 661 =  1 + 165·2^2 ◗]
  663 /3/ [◖ 1 ◗, ◖ 5 =  1 + 1·2^2 ◗, ◖ 39 = -1 + 5·2^3 ◗, ◖ 663 =  39 + 39·2^4 ◗]
  665 /3/ [◖ 1 ◗, ◖ 3 =  1 + 1·2^1 ◗, ◖ 95 = -1 + 3·2^5 ◗, ◖ 665 = -95 + 95·2^3 ◗]
  667 /3/ [◖ 1 ◗, ◖ 5 =  1 + 1·2^2 ◗, ◖ 21 =  1 + 5·2^2 ◗, ◖ 667 = -5 + 21·2^5 ◗]
  669 /3/ [◖ 1 ◗, ◖ 7 = -1 + 1·2^3 ◗, ◖ 223 = -1 + 7·2^5 ◗, ◖ 669 =  223 + 223·2^1 ◗]
  671 /3/ [◖ 1 ◗, ◖ 5 =  1 + 1·2^2 ◗, ◖ 21 =  1 + 5·2^2 ◗, ◖ 671 = -1 + 21·2^5 ◗]
  673 /3/ [◖ 1 ◗, ◖ 5 =  1 + 1·2^2 ◗, ◖ 21 =  1 + 5·2^2 ◗, ◖ 673 =  1 + 21·2^5 ◗]
  675 /3/ [◖ 1 ◗, ◖ 5 =  1 + 1·2^2 ◗, ◖ 85 =  5 + 5·2^4 ◗, ◖ 675 = -5 + 85·2^3 ◗]
  677 /3/ [◖ 1 ◗, ◖ 5 =  1 + 1·2^2 ◗, ◖ 21 =  1 + 5·2^2 ◗, ◖ 677 =  5 + 21·2^5 ◗]
  679 /3/ [◖ 1 ◗, ◖ 5 =  1 + 1·2^2 ◗, ◖ 85 =  5 + 5·2^4 ◗, ◖ 679 = -1 + 85·2^3 ◗]
  681 /3/ [◖ 1 ◗, ◖ 5 =  1 + 1·2^2 ◗, ◖ 85 =  5 + 5·2^4 ◗, ◖ 681 =  1 + 85·2^3 ◗]
  683 /4/ [◖ 1 ◗, ◖ 5 =  1 + 1·2^2 ◗, ◖ 85 =  5 + 5·2^4 ◗, ◖ 171 =  1 + 85·2^1 ◗, ◖ 683 = -1 + 171·2^2 ◗]
  685 /3/ [◖ 1 ◗, ◖ 5 =  1 + 1·2^2 ◗, ◖ 85 =  5 + 5·2^4 ◗, ◖ 685 =  5 + 85·2^3 ◗]
  687 /4/ [◖ 1 ◗, ◖ 3 =  1 + 1·2^1 ◗, ◖ 11 = -1 + 3·2^2 ◗, ◖ 43 = -1 + 11·2^2 ◗, ◖ 687 = -1 + 43·2^4 ◗]
  689 /3/ [◖ 1 ◗, ◖ 17 =  1 + 1·2^4 ◗, ◖ 561 =  17 + 17·2^5 ◗, ◖ 689 =  561 + 1·2^7 ◗]
  691 /4/ [◖ 1 ◗, ◖ 3 =  1 + 1·2^1 ◗, ◖ 11 = -1 + 3·2^2 ◗, ◖ 173 = -3 + 11·2^4 ◗, ◖ 691 = -1 + 173·2^2 ◗]
  693 /3/ [◖ 1 ◗, ◖ 3 =  1 + 1·2^1 ◗, ◖ 11 = -1 + 3·2^2 ◗, ◖ 693 = -11 + 11·2^6 ◗]
  695 /3/ [◖ 1 ◗, ◖ 9 =  1 + 1·2^3 ◗, ◖ 567 = -9 + 9·2^6 ◗, ◖ 695 =  567 + 1·2^7 ◗]
  697 /3/ [◖ 1 ◗, ◖ 5 =  1 + 1·2^2 ◗, ◖ 41 =  1 + 5·2^3 ◗, ◖ 697 =  41 + 41·2^4 ◗]
  699 /3/ [◖ 1 ◗, ◖ 5 =  1 + 1·2^2 ◗, ◖ 325 =  5 + 5·2^6 ◗, ◖ 699 = -325 + 1·2^10 ◗]
  701 /3/ [◖ 1 ◗, ◖ 3 =  1 + 1·2^1 ◗, ◖ 11 = -1 + 3·2^2 ◗, ◖ 701 = -3 + 11·2^6 ◗]
  703 /3/ [◖ 1 ◗, ◖ 3 =  1 + 1·2^1 ◗, ◖ 11 = -1 + 3·2^2 ◗, ◖ 703 = -1 + 11·2^6 ◗]
".
Definition v2_11 : string := "  705 /3/ [◖ 1 ◗, ◖ 3 =  1 + 1·2^1 ◗, ◖ 11 = -1 + 3·2^2 ◗, ◖ 705 =  1 + 11·2^6 ◗]
  707 /3/ [◖ 1 ◗, ◖ 3 =  1 + 1·2^1 ◗, ◖ 11 = -1 + 3·2^2 ◗, ◖ 707 =  3 + 11·2^6 ◗]
  709 /3/ [◖ 1 ◗, ◖ 5 =  1 + 1·2^2 ◗, ◖ 315 = -5 + 5·2^6 ◗, ◖ 709 = -315 + 1·2^10 ◗]
  711 /3/ [◖ 1 ◗, ◖ 5 =  1 + 1·2^2 ◗, ◖ 79 = -1 + 5·2^4 ◗, ◖ 711 =  79 + 79·2^3 ◗]
  713 /3/ [◖ 1 ◗, ◖ 3 =  1 + 1·2^1 ◗, ◖ 23 = -1 + 3·2^3 ◗, ◖ 713 = -23 + 23·2^5 ◗]
  715 /3/ [◖ 1 ◗, ◖ 3 =  1 + 1·2^1 ◗, ◖ 11 = -1 + 3·2^2 ◗, ◖ 715 =  11 + 11·2^6 ◗]
  717 /3/ [◖ 1 ◗, ◖ 3 =  1 + 1·2^1 ◗, ◖ 45 = -3 + 3·2^4 ◗, ◖ 717 = -3 + 45·2^4 ◗]
  719 /3/ [◖ 1 ◗, ◖ 3 =  1 + 1·2^1 ◗, ◖ 45 = -3 + 3·2^4 ◗, ◖ 719 = -1 + 45·2^4 ◗]
  721 /3/ [◖ 1 ◗, ◖ 3 =  1 + 1·2^1 ◗, ◖ 45 = -3 + 3·2^4 ◗, ◖ 721 =  1 + 45·2^4 ◗]
  723 /3/ [◖ 1 ◗, ◖ 3 =  1 + 1·2^1 ◗, ◖ 45 = -3 + 3·2^4 ◗, ◖ 723 =  3 + 45·2^4 ◗]
  725 /3/ [◖ 1 ◗, ◖ 9 =  1 + 1·2^3 ◗, ◖ 145 =  1 + 9·2^4 ◗, ◖ 725 =  145 + 145·2^2 ◗]
  727 /3/ [◖ 1 ◗, ◖ 9 =  1 + 1·2^3 ◗, ◖ 297 =  9 + 9·2^5 ◗, ◖ 727 = -297 + 1·2^10 ◗]
  729 /3/ [◖ 1 ◗, ◖ 5 =  1 + 1·2^2 ◗, ◖ 81 =  1 + 5·2^4 ◗, ◖ 729 =  81 + 81·2^3 ◗]
  731 /4/ [◖ 1 ◗, ◖ 3 =  1 + 1·2^1 ◗, ◖ 23 = -1 + 3·2^3 ◗, ◖ 183 = -1 + 23·2^3 ◗, ◖ 731 = -1 + 183·2^2 ◗]
  733 /3/ [◖ 1 ◗, ◖ 3 =  1 + 1·2^1 ◗, ◖ 23 = -1 + 3·2^3 ◗, ◖ 733 = -3 + 23·2^5 ◗]
  735 /3/ [◖ 1 ◗, ◖ 3 =  1 + 1·2^1 ◗, ◖ 23 = -1 + 3·2^3 ◗, ◖ 735 = -1 + 23·2^5 ◗]
  737 /3/ [◖ 1 ◗, ◖ 3 =  1 + 1·2^1 ◗, ◖ 23 = -1 + 3·2^3 ◗, ◖ 737 =  1 + 23·2^5 ◗]
  739 /3/ [◖ 1 ◗, ◖ 3 =  1 + 1·2^1 ◗, ◖ 23 = -1 + 3·2^3 ◗, ◖ 739 =  3 + 23·2^5 ◗]
  741 /3/ [◖ 1 ◗, ◖ 3 =  1 + 1·2^1 ◗, ◖ 93 = -3 + 3·2^5 ◗, ◖ 741 = -3 + 93·2^3 ◗]
  743 /3/ [◖ 1 ◗, ◖ 3 =  1 + 1·2^1 ◗, ◖ 93 = -3 + 3·2^5 ◗, ◖ 743 = -1 + 93·2^3 ◗]
  745 /3/ [◖ 1 ◗, ◖ 3 =  1 + 1·2^1 ◗, ◖ 93 = -3 + 3·2^5 ◗, ◖ 745 =  1 + 93·2^3 ◗]
  747 /3/ [◖ 1 ◗, ◖ 3 =  1 + 1·2^1 ◗, ◖ 93 = -3 + 3·2^5 ◗, ◖ 747 =  3 + 93·2^3 ◗]
  749 /3/ [◖ 1 ◗, ◖ 3 =  1 + 1·2^1 ◗, ◖ 47 = -1 + 3·2^4 ◗, ◖ 749 = -3 + 47·2^4 ◗]
  751 /3/ [◖ 1 ◗, ◖ 3 =  1 + 1·2^1 ◗, ◖ 47 = -1 + 3·2^4 ◗, ◖ 751 = -1 + 47·2^4 ◗]
  753 /3/ [◖ 1 ◗, ◖ 3 =  1 + 1·2^1 ◗, ◖ 47 = -1 + 3·2^4 ◗, ◖ 753 =  1 + 47·2^4 ◗]
  755 /3/ [◖ 1 ◗, ◖ 3 =  1 + 1·2^1 ◗, ◖ 189 = -3 + 3·2^6 ◗, ◖ 755 = -1 + 189·2^2 ◗]
  757 /3/ [◖ 1 ◗, ◖ 3 =  1 + 1·2^1 ◗, ◖ 189 = -3 + 3·2^6 ◗, ◖ 757 =  1 + 189·2^2 ◗]
  759 /3/ [◖ 1 ◗, ◖ 3 =  1 + 1·2^1 ◗, ◖ 95 = -1 + 3·2^5 ◗, ◖ 759 = -1 + 95·2^3 ◗]
  761 /3/ [◖ 1 ◗, ◖ 3 =  1 + 1·2^1 ◗, ◖ 95 = -1 + 3·2^5 ◗, ◖ 761 =  1 + 95·2^3 ◗]
  763 /3/ [◖ 1 ◗, ◖ 3 =  1 + 1·2^1 ◗, ◖ 191 = -1 + 3·2^6 ◗, ◖ 763 = -1 + 191·2^2 ◗]
  765 /2/ [◖ 1 ◗, ◖ 3 =  1 + 1·2^1 ◗, ◖ 765 = -3 + 3·2^8 ◗]
  767 /2/ [◖ 1 ◗, ◖ 3 =  1 + 1·2^1 ◗, ◖ 767 = -1 + 3·2^8 ◗]
".
Definition v2_12 : string := "  769 /2/ [◖ 1 ◗, ◖ 3 =  1 + 1·2^1 ◗, ◖ 769 =  1 + 3·2^8 ◗]
  771 /2/ [◖ 1 ◗, ◖ 3 =  1 + 1·2^1 ◗, ◖ 771 =  3 + 3·2^8 ◗]
  773 /3/ [◖ 1 ◗, ◖ 3 =  1 + 1·2^1 ◗, ◖ 193 =  1 + 3·2^6 ◗, ◖ 773 =  1 + 193·2^2 ◗]
  775 /3/ [◖ 1 ◗, ◖ 3 =  1 + 1·2^1 ◗, ◖ 97 =  1 + 3·2^5 ◗, ◖ 775 = -1 + 97·2^3 ◗]
  777 /3/ [◖ 1 ◗, ◖ 3 =  1 + 1·2^1 ◗, ◖ 97 =  1 + 3·2^5 ◗, ◖ 777 =  1 + 97·2^3 ◗]
  779 /3/ [◖ 1 ◗, ◖ 3 =  1 + 1·2^1 ◗, ◖ 195 =  3 + 3·2^6 ◗, ◖ 779 = -1 + 195·2^2 ◗]
  781 /3/ [◖ 1 ◗, ◖ 3 =  1 + 1·2^1 ◗, ◖ 195 =  3 + 3·2^6 ◗, ◖ 781 =  1 + 195·2^2 ◗]
  783 /3/ [◖ 1 ◗, ◖ 3 =  1 + 1·2^1 ◗, ◖ 49 =  1 + 3·2^4 ◗, ◖ 783 = -1 + 49·2^4 ◗]
  785 /3/ [◖ 1 ◗, ◖ 3 =  1 + 1·2^1 ◗, ◖ 49 =  1 + 3·2^4 ◗, ◖ 785 =  1 + 49·2^4 ◗]
  787 /3/ [◖ 1 ◗, ◖ 3 =  1 + 1·2^1 ◗, ◖ 49 =  1 + 3·2^4 ◗, ◖ 787 =  3 + 49·2^4 ◗]
  789 /3/ [◖ 1 ◗, ◖ 3 =  1 + 1·2^1 ◗, ◖ 99 =  3 + 3·2^5 ◗, ◖ 789 = -3 + 99·2^3 ◗]
  791 /3/ [◖ 1 ◗, ◖ 3 =  1 + 1·2^1 ◗, ◖ 99 =  3 + 3·2^5 ◗, ◖ 791 = -1 + 99·2^3 ◗]
  793 /3/ [◖ 1 ◗, ◖ 3 =  1 + 1·2^1 ◗, ◖ 99 =  3 + 3·2^5 ◗, ◖ 793 =  1 + 99·2^3 ◗]
  795 /3/ [◖ 1 ◗, ◖ 3 =  1 + 1·2^1 ◗, ◖ 99 =  3 + 3·2^5 ◗, ◖ 795 =  3 + 99·2^3 ◗]
  797 /3/ [◖ 1 ◗, ◖ 3 =  1 + 1·2^1 ◗, ◖ 25 =  1 + 3·2^3 ◗, ◖ 797 = -3 + 25·2^5 ◗]
  799 /3/ [◖ 1 ◗, ◖ 3 =  1 + 1·2^1 ◗, ◖ 25 =  1 + 3·2^3 ◗, ◖ 799 = -1 + 25·2^5 ◗]
  801 /3/ [◖ 1 ◗, ◖ 3 =  1 + 1·2^1 ◗, ◖ 25 =  1 + 3·2^3 ◗, ◖ 801 =  1 + 25·2^5 ◗]
  803 /3/ [◖ 1 ◗, ◖ 3 =  1 + 1·2^1 ◗, ◖ 25 =  1 + 3·2^3 ◗, ◖ 803 =  3 + 25·2^5 ◗]
  805 /4/ [◖ 1 ◗, ◖ 3 =  1 + 1·2^1 ◗, ◖ 25 =  1 + 3·2^3 ◗, ◖ 201 =  1 + 25·2^3 ◗, ◖ 805 =  1 + 201·2^2 ◗]
  807 /3/ [◖ 1 ◗, ◖ 7 = -1 + 1·2^3 ◗, ◖ 217 = -7 + 7·2^5 ◗, ◖ 807 = -217 + 1·2^10 ◗]
  809 /3/ [◖ 1 ◗, ◖ 9 =  1 + 1·2^3 ◗, ◖ 297 =  9 + 9·2^5 ◗, ◖ 809 =  297 + 1·2^9 ◗]
  811 /4/ [◖ 1 ◗, ◖ 3 =  1 + 1·2^1 ◗, ◖ 51 =  3 + 3·2^4 ◗, ◖ 203 = -1 + 51·2^2 ◗, ◖ 811 = -1 + 203·2^2 ◗]
  813 /3/ [◖ 1 ◗, ◖ 3 =  1 + 1·2^1 ◗, ◖ 51 =  3 + 3·2^4 ◗, ◖ 813 = -3 + 51·2^4 ◗]
  815 /3/ [◖ 1 ◗, ◖ 3 =  1 + 1·2^1 ◗, ◖ 51 =  3 + 3·2^4 ◗, ◖ 815 = -1 + 51·2^4 ◗]
  817 /3/ [◖ 1 ◗, ◖ 3 =  1 + 1·2^1 ◗, ◖ 51 =  3 + 3·2^4 ◗, ◖ 817 =  1 + 51·2^4 ◗]
  819 /3/ [◖ 1 ◗, ◖ 3 =  1 + 1·2^1 ◗, ◖ 51 =  3 + 3·2^4 ◗, ◖ 819 =  3 + 51·2^4 ◗]
  821 /4/ [◖ 1 ◗, ◖ 3 =  1 + 1·2^1 ◗, ◖ 51 =  3 + 3·2^4 ◗, ◖ 205 =  1 + 51·2^2 ◗, ◖ 821 =  1 + 205·2^2 ◗]
  823 /3/ [◖ 1 ◗, ◖ 9 =  1 + 1·2^3 ◗, ◖ 567 = -9 + 9·2^6 ◗, ◖ 823 =  567 + 1·2^8 ◗]
  825 /3/ [◖ 1 ◗, ◖ 3 =  1 + 1·2^1 ◗, ◖ 25 =  1 + 3·2^3 ◗, ◖ 825 =  25 + 25·2^5 ◗]
  827 /3/ [◖ 1 ◗, ◖ 5 =  1 + 1·2^2 ◗, ◖ 315 = -5 + 5·2^6 ◗, ◖ 827 =  315 + 1·2^9 ◗]
  829 /3/ [◖ 1 ◗, ◖ 3 =  1 + 1·2^1 ◗, ◖ 13 =  1 + 3·2^2 ◗, ◖ 829 = -3 + 13·2^6 ◗]
  831 /3/ [◖ 1 ◗, ◖ 3 =  1 + 1·2^1 ◗, ◖ 13 =  1 + 3·2^2 ◗, ◖ 831 = -1 + 13·2^6 ◗]
".
Definition v2_13 : string := "  833 /3/ [◖ 1 ◗, ◖ 3 =  1 + 1·2^1 ◗, ◖ 13 =  1 + 3·2^2 ◗, ◖ 833 =  1 + 13·2^6 ◗]
  835 /3/ [◖ 1 ◗, ◖ 3 =  1 + 1·2^1 ◗, ◖ 13 =  1 + 3·2^2 ◗, ◖ 835 =  3 + 13·2^6 ◗]
  837 /3/ [◖ 1 ◗, ◖ 3 =  1 + 1·2^1 ◗, ◖ 93 = -3 + 3·2^5 ◗, ◖ 837 =  93 + 93·2^3 ◗]
  839 /3/ [◖ 1 ◗, ◖ 7 = -1 + 1·2^3 ◗, ◖ 105 = -7 + 7·2^4 ◗, ◖ 839 = -1 + 105·2^3 ◗]
  841 /3/ [◖ 1 ◗, ◖ 7 = -1 + 1·2^3 ◗, ◖ 105 = -7 + 7·2^4 ◗, ◖ 841 =  1 + 105·2^3 ◗]
  843 /4/ [◖ 1 ◗, ◖ 7 = -1 + 1·2^3 ◗, ◖ 105 = -7 + 7·2^4 ◗, ◖ 211 =  1 + 105·2^1 ◗, ◖ 843 = -1 + 211·2^2 ◗]
  845 /3/ [◖ 1 ◗, ◖ 3 =  1 + 1·2^1 ◗, ◖ 13 =  1 + 3·2^2 ◗, ◖ 845 =  13 + 13·2^6 ◗]
  847 /3/ [◖ 1 ◗, ◖ 15 = -1 + 1·2^4 ◗, ◖ 975 =  15 + 15·2^6 ◗, ◖ 847 =  975 - 1·2^7 ◗]
  849 /3/ [◖ 1 ◗, ◖ 17 =  1 + 1·2^4 ◗, ◖ 1105 =  17 + 17·2^6 ◗, ◖ 849 =  1105 - 1·2^8 ◗]
  851 /4/ [◖ 1 ◗, ◖ 7 = -1 + 1·2^3 ◗, ◖ 27 = -1 + 7·2^2 ◗, ◖ 425 = -7 + 27·2^4 ◗, ◖ 851 =  1 + 425·2^1 ◗]
  853 /4/ [◖ 1 ◗, ◖ 7 = -1 + 1·2^3 ◗, ◖ 55 = -1 + 7·2^3 ◗, ◖ 213 = -7 + 55·2^2 ◗, ◖ 853 =  1 + 213·2^2 ◗]
  855 /3/ [◖ 1 ◗, ◖ 3 =  1 + 1·2^1 ◗, ◖ 95 = -1 + 3·2^5 ◗, ◖ 855 =  95 + 95·2^3 ◗]
  857 /3/ [◖ 1 ◗, ◖ 7 = -1 + 1·2^3 ◗, ◖ 27 = -1 + 7·2^2 ◗, ◖ 857 = -7 + 27·2^5 ◗]
  859 /3/ [◖ 1 ◗, ◖ 5 =  1 + 1·2^2 ◗, ◖ 165 =  5 + 5·2^5 ◗, ◖ 859 = -165 + 1·2^10 ◗]
  861 /3/ [◖ 1 ◗, ◖ 7 = -1 + 1·2^3 ◗, ◖ 217 = -7 + 7·2^5 ◗, ◖ 861 = -7 + 217·2^2 ◗]
  863 /3/ [◖ 1 ◗, ◖ 7 = -1 + 1·2^3 ◗, ◖ 27 = -1 + 7·2^2 ◗, ◖ 863 = -1 + 27·2^5 ◗]
  865 /3/ [◖ 1 ◗, ◖ 7 = -1 + 1·2^3 ◗, ◖ 27 = -1 + 7·2^2 ◗, ◖ 865 =  1 + 27·2^5 ◗]
  867 /3/ [◖ 1 ◗, ◖ 7 = -1 + 1·2^3 ◗, ◖ 217 = -7 + 7·2^5 ◗, ◖ 867 = -1 + 217·2^2 ◗]
  869 /3/ [◖ 1 ◗, ◖ 7 = -1 + 1·2^3 ◗, ◖ 217 = -7 + 7·2^5 ◗, ◖ 869 =  1 + 217·2^2 ◗]
  871 /3/ [◖ 1 ◗, ◖ 7 = -1 + 1·2^3 ◗, ◖ 27 = -1 + 7·2^2 ◗, ◖ 871 =  7 + 27·2^5 ◗]
  873 /3/ [◖ 1 ◗, ◖ 7 = -1 + 1·2^3 ◗, ◖ 55 = -1 + 7·2^3 ◗, ◖ 873 = -7 + 55·2^4 ◗]
  875 /3/ [◖ 1 ◗, ◖ 7 = -1 + 1·2^3 ◗, ◖ 217 = -7 + 7·2^5 ◗, ◖ 875 =  7 + 217·2^2 ◗]
  877 /4/ [◖ 1 ◗, ◖ 7 = -1 + 1·2^3 ◗, ◖ 55 = -1 + 7·2^3 ◗, ◖ 219 = -1 + 55·2^2 ◗, ◖ 877 =  1 + 219·2^2 ◗]
  879 /3/ [◖ 1 ◗, ◖ 7 = -1 + 1·2^3 ◗, ◖ 55 = -1 + 7·2^3 ◗, ◖ 879 = -1 + 55·2^4 ◗]
  881 /3/ [◖ 1 ◗, ◖ 7 = -1 + 1·2^3 ◗, ◖ 55 = -1 + 7·2^3 ◗, ◖ 881 =  1 + 55·2^4 ◗]
  883 /3/ [◖ 1 ◗, ◖ 7 = -1 + 1·2^3 ◗, ◖ 441 = -7 + 7·2^6 ◗, ◖ 883 =  1 + 441·2^1 ◗]
  885 /3/ [◖ 1 ◗, ◖ 7 = -1 + 1·2^3 ◗, ◖ 223 = -1 + 7·2^5 ◗, ◖ 885 = -7 + 223·2^2 ◗]
  887 /3/ [◖ 1 ◗, ◖ 7 = -1 + 1·2^3 ◗, ◖ 111 = -1 + 7·2^4 ◗, ◖ 887 = -1 + 111·2^3 ◗]
  889 /2/ [◖ 1 ◗, ◖ 7 = -1 + 1·2^3 ◗, ◖ 889 = -7 + 7·2^7 ◗]
  891 /3/ [◖ 1 ◗, ◖ 7 = -1 + 1·2^3 ◗, ◖ 223 = -1 + 7·2^5 ◗, ◖ 891 = -1 + 223·2^2 ◗]
  893 /3/ [◖ 1 ◗, ◖ 7 = -1 + 1·2^3 ◗, ◖ 223 = -1 + 7·2^5 ◗, ◖ 893 =  1 + 223·2^2 ◗]
  895 /2/ [◖ 1 ◗, ◖ 7 = -1 + 1·2^3 ◗, ◖ 895 = -1 + 7·2^7 ◗]
".
Definition v2_14 : string := "  897 /2/ [◖ 1 ◗, ◖ 7 = -1 + 1·2^3 ◗, ◖ 897 =  1 + 7·2^7 ◗]
  899 /3/ [◖ 1 ◗, ◖ 7 = -1 + 1·2^3 ◗, ◖ 225 =  1 + 7·2^5 ◗, ◖ 899 = -1 + 225·2^2 ◗]
  901 /3/ [◖ 1 ◗, ◖ 7 = -1 + 1·2^3 ◗, ◖ 225 =  1 + 7·2^5 ◗, ◖ 901 =  1 + 225·2^2 ◗]
  903 /2/ [◖ 1 ◗, ◖ 7 = -1 + 1·2^3 ◗, ◖ 903 =  7 + 7·2^7 ◗]
  905 /3/ [◖ 1 ◗, ◖ 7 = -1 + 1·2^3 ◗, ◖ 113 =  1 + 7·2^4 ◗, ◖ 905 =  1 + 113·2^3 ◗]
  907 /3/ [◖ 1 ◗, ◖ 7 = -1 + 1·2^3 ◗, ◖ 225 =  1 + 7·2^5 ◗, ◖ 907 =  7 + 225·2^2 ◗]
  909 /3/ [◖ 1 ◗, ◖ 7 = -1 + 1·2^3 ◗, ◖ 455 =  7 + 7·2^6 ◗, ◖ 909 = -1 + 455·2^1 ◗]
  911 /3/ [◖ 1 ◗, ◖ 7 = -1 + 1·2^3 ◗, ◖ 57 =  1 + 7·2^3 ◗, ◖ 911 = -1 + 57·2^4 ◗]
  913 /3/ [◖ 1 ◗, ◖ 7 = -1 + 1·2^3 ◗, ◖ 57 =  1 + 7·2^3 ◗, ◖ 913 =  1 + 57·2^4 ◗]
  915 /3/ [◖ 1 ◗, ◖ 15 = -1 + 1·2^4 ◗, ◖ 465 = -15 + 15·2^5 ◗, ◖ 915 = -15 + 465·2^1 ◗]
  917 /3/ [◖ 1 ◗, ◖ 7 = -1 + 1·2^3 ◗, ◖ 231 =  7 + 7·2^5 ◗, ◖ 917 = -7 + 231·2^2 ◗]
  919 /3/ [◖ 1 ◗, ◖ 7 = -1 + 1·2^3 ◗, ◖ 57 =  1 + 7·2^3 ◗, ◖ 919 =  7 + 57·2^4 ◗]
  921 /3/ [◖ 1 ◗, ◖ 7 = -1 + 1·2^3 ◗, ◖ 29 =  1 + 7·2^2 ◗, ◖ 921 = -7 + 29·2^5 ◗]
  923 /3/ [◖ 1 ◗, ◖ 7 = -1 + 1·2^3 ◗, ◖ 231 =  7 + 7·2^5 ◗, ◖ 923 = -1 + 231·2^2 ◗]
  925 /3/ [◖ 1 ◗, ◖ 7 = -1 + 1·2^3 ◗, ◖ 231 =  7 + 7·2^5 ◗, ◖ 925 =  1 + 231·2^2 ◗]
  927 /3/ [◖ 1 ◗, ◖ 7 = -1 + 1·2^3 ◗, ◖ 29 =  1 + 7·2^2 ◗, ◖ 927 = -1 + 29·2^5 ◗]
  929 /3/ [◖ 1 ◗, ◖ 7 = -1 + 1·2^3 ◗, ◖ 29 =  1 + 7·2^2 ◗, ◖ 929 =  1 + 29·2^5 ◗]
  931 /3/ [◖ 1 ◗, ◖ 15 = -1 + 1·2^4 ◗, ◖ 465 = -15 + 15·2^5 ◗, ◖ 931 =  1 + 465·2^1 ◗]
  933 /4/ [◖ 1 ◗, ◖ 7 = -1 + 1·2^3 ◗, ◖ 29 =  1 + 7·2^2 ◗, ◖ 233 =  1 + 29·2^3 ◗, ◖ 933 =  1 + 233·2^2 ◗]
  935 /3/ [◖ 1 ◗, ◖ 7 = -1 + 1·2^3 ◗, ◖ 29 =  1 + 7·2^2 ◗, ◖ 935 =  7 + 29·2^5 ◗]
  937 /3/ [◖ 1 ◗, ◖ 15 = -1 + 1·2^4 ◗, ◖ 119 = -1 + 15·2^3 ◗, ◖ 937 = -15 + 119·2^3 ◗]
  939 /3/ [◖ 1 ◗, ◖ 5 =  1 + 1·2^2 ◗, ◖ 85 =  5 + 5·2^4 ◗, ◖ 939 = -85 + 1·2^10 ◗]
  941 /3/ [◖ 1 ◗, ◖ 15 = -1 + 1·2^4 ◗, ◖ 239 = -1 + 15·2^4 ◗, ◖ 941 = -15 + 239·2^2 ◗]
  943 /3/ [◖ 1 ◗, ◖ 15 = -1 + 1·2^4 ◗, ◖ 59 = -1 + 15·2^2 ◗, ◖ 943 = -1 + 59·2^4 ◗]
  945 /2/ [◖ 1 ◗, ◖ 15 = -1 + 1·2^4 ◗, ◖ 945 = -15 + 15·2^6 ◗]
  947 /3/ [◖ 1 ◗, ◖ 15 = -1 + 1·2^4 ◗, ◖ 481 =  1 + 15·2^5 ◗, ◖ 947 = -15 + 481·2^1 ◗]
  949 /3/ [◖ 1 ◗, ◖ 15 = -1 + 1·2^4 ◗, ◖ 241 =  1 + 15·2^4 ◗, ◖ 949 = -15 + 241·2^2 ◗]
  951 /3/ [◖ 1 ◗, ◖ 15 = -1 + 1·2^4 ◗, ◖ 119 = -1 + 15·2^3 ◗, ◖ 951 = -1 + 119·2^3 ◗]
  953 /3/ [◖ 1 ◗, ◖ 15 = -1 + 1·2^4 ◗, ◖ 119 = -1 + 15·2^3 ◗, ◖ 953 =  1 + 119·2^3 ◗]
  955 /3/ [◖ 1 ◗, ◖ 15 = -1 + 1·2^4 ◗, ◖ 239 = -1 + 15·2^4 ◗, ◖ 955 = -1 + 239·2^2 ◗]
  957 /3/ [◖ 1 ◗, ◖ 15 = -1 + 1·2^4 ◗, ◖ 239 = -1 + 15·2^4 ◗, ◖ 957 =  1 + 239·2^2 ◗]
  959 /2/ [◖ 1 ◗, ◖ 15 = -1 + 1·2^4 ◗, ◖ 959 = -1 + 15·2^6 ◗]
".
Definition v2_15 : string := "  961 /2/ [◖ 1 ◗, ◖ 15 = -1 + 1·2^4 ◗, ◖ 961 =  1 + 15·2^6 ◗]
  963 /3/ [◖ 1 ◗, ◖ 15 = -1 + 1·2^4 ◗, ◖ 241 =  1 + 15·2^4 ◗, ◖ 963 = -1 + 241·2^2 ◗]
  965 /3/ [◖ 1 ◗, ◖ 15 = -1 + 1·2^4 ◗, ◖ 241 =  1 + 15·2^4 ◗, ◖ 965 =  1 + 241·2^2 ◗]
  967 /3/ [◖ 1 ◗, ◖ 15 = -1 + 1·2^4 ◗, ◖ 121 =  1 + 15·2^3 ◗, ◖ 967 = -1 + 121·2^3 ◗]
  969 /3/ [◖ 1 ◗, ◖ 15 = -1 + 1·2^4 ◗, ◖ 121 =  1 + 15·2^3 ◗, ◖ 969 =  1 + 121·2^3 ◗]
  971 /3/ [◖ 1 ◗, ◖ 15 = -1 + 1·2^4 ◗, ◖ 239 = -1 + 15·2^4 ◗, ◖ 971 =  15 + 239·2^2 ◗]
  973 /3/ [◖ 1 ◗, ◖ 15 = -1 + 1·2^4 ◗, ◖ 479 = -1 + 15·2^5 ◗, ◖ 973 =  15 + 479·2^1 ◗]
  975 /2/ [◖ 1 ◗, ◖ 15 = -1 + 1·2^4 ◗, ◖ 975 =  15 + 15·2^6 ◗]
  977 /3/ [◖ 1 ◗, ◖ 15 = -1 + 1·2^4 ◗, ◖ 61 =  1 + 15·2^2 ◗, ◖ 977 =  1 + 61·2^4 ◗]
  979 /3/ [◖ 1 ◗, ◖ 15 = -1 + 1·2^4 ◗, ◖ 241 =  1 + 15·2^4 ◗, ◖ 979 =  15 + 241·2^2 ◗]
  981 /4/ [◖ 1 ◗, ◖ 15 = -1 + 1·2^4 ◗, ◖ 61 =  1 + 15·2^2 ◗, ◖ 245 =  1 + 61·2^2 ◗, ◖ 981 =  1 + 245·2^2 ◗]
  983 /3/ [◖ 1 ◗, ◖ 31 = -1 + 1·2^5 ◗, ◖ 123 = -1 + 31·2^2 ◗, ◖ 983 = -1 + 123·2^3 ◗]
  985 /3/ [◖ 1 ◗, ◖ 31 = -1 + 1·2^5 ◗, ◖ 123 = -1 + 31·2^2 ◗, ◖ 985 =  1 + 123·2^3 ◗]
  987 /3/ [◖ 1 ◗, ◖ 31 = -1 + 1·2^5 ◗, ◖ 247 = -1 + 31·2^3 ◗, ◖ 987 = -1 + 247·2^2 ◗]
  989 /3/ [◖ 1 ◗, ◖ 31 = -1 + 1·2^5 ◗, ◖ 247 = -1 + 31·2^3 ◗, ◖ 989 =  1 + 247·2^2 ◗]
  991 /2/ [◖ 1 ◗, ◖ 31 = -1 + 1·2^5 ◗, ◖ 991 = -1 + 31·2^5 ◗]
  993 /2/ [◖ 1 ◗, ◖ 31 = -1 + 1·2^5 ◗, ◖ 993 =  1 + 31·2^5 ◗]
  995 /3/ [◖ 1 ◗, ◖ 31 = -1 + 1·2^5 ◗, ◖ 249 =  1 + 31·2^3 ◗, ◖ 995 = -1 + 249·2^2 ◗]
  997 /3/ [◖ 1 ◗, ◖ 31 = -1 + 1·2^5 ◗, ◖ 249 =  1 + 31·2^3 ◗, ◖ 997 =  1 + 249·2^2 ◗]
  999 /3/ [◖ 1 ◗, ◖ 31 = -1 + 1·2^5 ◗, ◖ 125 =  1 + 31·2^2 ◗, ◖ 999 = -1 + 125·2^3 ◗]
 1001 /3/ [◖ 1 ◗, ◖ 31 = -1 + 1·2^5 ◗, ◖ 125 =  1 + 31·2^2 ◗, ◖ 1001 =  1 + 125·2^3 ◗]
 1003 /3/ [◖ 1 ◗, ◖ 63 = -1 + 1·2^6 ◗, ◖ 251 = -1 + 63·2^2 ◗, ◖ 1003 = -1 + 251·2^2 ◗]
 1005 /3/ [◖ 1 ◗, ◖ 63 = -1 + 1·2^6 ◗, ◖ 251 = -1 + 63·2^2 ◗, ◖ 1005 =  1 + 251·2^2 ◗]
 1007 /2/ [◖ 1 ◗, ◖ 63 = -1 + 1·2^6 ◗, ◖ 1007 = -1 + 63·2^4 ◗]
 1009 /2/ [◖ 1 ◗, ◖ 63 = -1 + 1·2^6 ◗, ◖ 1009 =  1 + 63·2^4 ◗]
 1011 /3/ [◖ 1 ◗, ◖ 63 = -1 + 1·2^6 ◗, ◖ 253 =  1 + 63·2^2 ◗, ◖ 1011 = -1 + 253·2^2 ◗]
 1013 /3/ [◖ 1 ◗, ◖ 63 = -1 + 1·2^6 ◗, ◖ 253 =  1 + 63·2^2 ◗, ◖ 1013 =  1 + 253·2^2 ◗]
 1015 /2/ [◖ 1 ◗, ◖ 127 = -1 + 1·2^7 ◗, ◖ 1015 = -1 + 127·2^3 ◗]
 1017 /2/ [◖ 1 ◗, ◖ 127 = -1 + 1·2^7 ◗, ◖ 1017 =  1 + 127·2^3 ◗]
 1019 /2/ [◖ 1 ◗, ◖ 255 = -1 + 1·2^8 ◗, ◖ 1019 = -1 + 255·2^2 ◗]
 1021 /2/ [◖ 1 ◗, ◖ 255 = -1 + 1·2^8 ◗, ◖ 1021 =  1 + 255·2^2 ◗]
 1023 /1/ [◖ 1 ◗, ◖ 1023 = -1 + 1·2^10 ◗]
".
Definition v2_16 : string := " 1025 /1/ [◖ 1 ◗, ◖ 1025 =  1 + 1·2^10 ◗]
 1027 /2/ [◖ 1 ◗, ◖ 257 =  1 + 1·2^8 ◗, ◖ 1027 = -1 + 257·2^2 ◗]
 1029 /2/ [◖ 1 ◗, ◖ 257 =  1 + 1·2^8 ◗, ◖ 1029 =  1 + 257·2^2 ◗]
 1031 /2/ [◖ 1 ◗, ◖ 129 =  1 + 1·2^7 ◗, ◖ 1031 = -1 + 129·2^3 ◗]
 1033 /2/ [◖ 1 ◗, ◖ 129 =  1 + 1·2^7 ◗, ◖ 1033 =  1 + 129·2^3 ◗]
 1035 /3/ [◖ 1 ◗, ◖ 65 =  1 + 1·2^6 ◗, ◖ 259 = -1 + 65·2^2 ◗, ◖ 1035 = -1 + 259·2^2 ◗]
 1037 /3/ [◖ 1 ◗, ◖ 65 =  1 + 1·2^6 ◗, ◖ 259 = -1 + 65·2^2 ◗, ◖ 1037 =  1 + 259·2^2 ◗]
 1039 /2/ [◖ 1 ◗, ◖ 65 =  1 + 1·2^6 ◗, ◖ 1039 = -1 + 65·2^4 ◗]
 1041 /2/ [◖ 1 ◗, ◖ 65 =  1 + 1·2^6 ◗, ◖ 1041 =  1 + 65·2^4 ◗]
 1043 /3/ [◖ 1 ◗, ◖ 65 =  1 + 1·2^6 ◗, ◖ 261 =  1 + 65·2^2 ◗, ◖ 1043 = -1 + 261·2^2 ◗]
 1045 /3/ [◖ 1 ◗, ◖ 65 =  1 + 1·2^6 ◗, ◖ 261 =  1 + 65·2^2 ◗, ◖ 1045 =  1 + 261·2^2 ◗]
 1047 /3/ [◖ 1 ◗, ◖ 33 =  1 + 1·2^5 ◗, ◖ 131 = -1 + 33·2^2 ◗, ◖ 1047 = -1 + 131·2^3 ◗]
 1049 /3/ [◖ 1 ◗, ◖ 33 =  1 + 1·2^5 ◗, ◖ 131 = -1 + 33·2^2 ◗, ◖ 1049 =  1 + 131·2^3 ◗]
 1051 /3/ [◖ 1 ◗, ◖ 33 =  1 + 1·2^5 ◗, ◖ 263 = -1 + 33·2^3 ◗, ◖ 1051 = -1 + 263·2^2 ◗]
 1053 /3/ [◖ 1 ◗, ◖ 33 =  1 + 1·2^5 ◗, ◖ 263 = -1 + 33·2^3 ◗, ◖ 1053 =  1 + 263·2^2 ◗]
 1055 /2/ [◖ 1 ◗, ◖ 33 =  1 + 1·2^5 ◗, ◖ 1055 = -1 + 33·2^5 ◗]
 1057 /2/ [◖ 1 ◗, ◖ 33 =  1 + 1·2^5 ◗, ◖ 1057 =  1 + 33·2^5 ◗]
 1059 /3/ [◖ 1 ◗, ◖ 33 =  1 + 1·2^5 ◗, ◖ 265 =  1 + 33·2^3 ◗, ◖ 1059 = -1 + 265·2^2 ◗]
 1061 /3/ [◖ 1 ◗, ◖ 33 =  1 + 1·2^5 ◗, ◖ 265 =  1 + 33·2^3 ◗, ◖ 1061 =  1 + 265·2^2 ◗]
 1063 /3/ [◖ 1 ◗, ◖ 33 =  1 + 1·2^5 ◗, ◖ 133 =  1 + 33·2^2 ◗, ◖ 1063 = -1 + 133·2^3 ◗]
 1065 /3/ [◖ 1 ◗, ◖ 33 =  1 + 1·2^5 ◗, ◖ 133 =  1 + 33·2^2 ◗, ◖ 1065 =  1 + 133·2^3 ◗]
 1067 /3/ [◖ 1 ◗, ◖ 17 =  1 + 1·2^4 ◗, ◖ 271 = -1 + 17·2^4 ◗, ◖ 1067 = -17 + 271·2^2 ◗]
 1069 /3/ [◖ 1 ◗, ◖ 17 =  1 + 1·2^4 ◗, ◖ 543 = -1 + 17·2^5 ◗, ◖ 1069 = -17 + 543·2^1 ◗]
 1071 /2/ [◖ 1 ◗, ◖ 17 =  1 + 1·2^4 ◗, ◖ 1071 = -17 + 17·2^6 ◗]
 1073 /3/ [◖ 1 ◗, ◖ 17 =  1 + 1·2^4 ◗, ◖ 67 = -1 + 17·2^2 ◗, ◖ 1073 =  1 + 67·2^4 ◗]
 1075 /3/ [◖ 1 ◗, ◖ 17 =  1 + 1·2^4 ◗, ◖ 273 =  1 + 17·2^4 ◗, ◖ 1075 = -17 + 273·2^2 ◗]
 1077 /4/ [◖ 1 ◗, ◖ 17 =  1 + 1·2^4 ◗, ◖ 67 = -1 + 17·2^2 ◗, ◖ 269 =  1 + 67·2^2 ◗, ◖ 1077 =  1 + 269·2^2 ◗]
 1079 /3/ [◖ 1 ◗, ◖ 17 =  1 + 1·2^4 ◗, ◖ 135 = -1 + 17·2^3 ◗, ◖ 1079 = -1 + 135·2^3 ◗]
 1081 /3/ [◖ 1 ◗, ◖ 17 =  1 + 1·2^4 ◗, ◖ 135 = -1 + 17·2^3 ◗, ◖ 1081 =  1 + 135·2^3 ◗]
 1083 /3/ [◖ 1 ◗, ◖ 17 =  1 + 1·2^4 ◗, ◖ 271 = -1 + 17·2^4 ◗, ◖ 1083 = -1 + 271·2^2 ◗]
 1085 /3/ [◖ 1 ◗, ◖ 17 =  1 + 1·2^4 ◗, ◖ 271 = -1 + 17·2^4 ◗, ◖ 1085 =  1 + 271·2^2 ◗]
 1087 /2/ [◖ 1 ◗, ◖ 17 =  1 + 1·2^4 ◗, ◖ 1087 = -1 + 17·2^6 ◗]
".
Definition v2_17 : string := " 1089 /2/ [◖ 1 ◗, ◖ 17 =  1 + 1·2^4 ◗, ◖ 1089 =  1 + 17·2^6 ◗]
 1091 /3/ [◖ 1 ◗, ◖ 17 =  1 + 1·2^4 ◗, ◖ 273 =  1 + 17·2^4 ◗, ◖ 1091 = -1 + 273·2^2 ◗]
 1093 /3/ [◖ 1 ◗, ◖ 17 =  1 + 1·2^4 ◗, ◖ 273 =  1 + 17·2^4 ◗, ◖ 1093 =  1 + 273·2^2 ◗]
 1095 /3/ [◖ 1 ◗, ◖ 17 =  1 + 1·2^4 ◗, ◖ 137 =  1 + 17·2^3 ◗, ◖ 1095 = -1 + 137·2^3 ◗]
 1097 /3/ [◖ 1 ◗, ◖ 17 =  1 + 1·2^4 ◗, ◖ 137 =  1 + 17·2^3 ◗, ◖ 1097 =  1 + 137·2^3 ◗]
 1099 /3/ [◖ 1 ◗, ◖ 5 =  1 + 1·2^2 ◗, ◖ 75 = -5 + 5·2^4 ◗, ◖ 1099 =  75 + 1·2^10 ◗]
 1101 /3/ [◖ 1 ◗, ◖ 17 =  1 + 1·2^4 ◗, ◖ 271 = -1 + 17·2^4 ◗, ◖ 1101 =  17 + 271·2^2 ◗]
 1103 /3/ [◖ 1 ◗, ◖ 17 =  1 + 1·2^4 ◗, ◖ 69 =  1 + 17·2^2 ◗, ◖ 1103 = -1 + 69·2^4 ◗]
 1105 /2/ [◖ 1 ◗, ◖ 17 =  1 + 1·2^4 ◗, ◖ 1105 =  17 + 17·2^6 ◗]
 1107 /3/ [◖ 1 ◗, ◖ 9 =  1 + 1·2^3 ◗, ◖ 279 = -9 + 9·2^5 ◗, ◖ 1107 = -9 + 279·2^2 ◗]
 1109 /3/ [◖ 1 ◗, ◖ 17 =  1 + 1·2^4 ◗, ◖ 273 =  1 + 17·2^4 ◗, ◖ 1109 =  17 + 273·2^2 ◗]
 1111 /3/ [◖ 1 ◗, ◖ 9 =  1 + 1·2^3 ◗, ◖ 35 = -1 + 9·2^2 ◗, ◖ 1111 = -9 + 35·2^5 ◗]
 1113 /3/ [◖ 1 ◗, ◖ 17 =  1 + 1·2^4 ◗, ◖ 137 =  1 + 17·2^3 ◗, ◖ 1113 =  17 + 137·2^3 ◗]
 1115 /3/ [◖ 1 ◗, ◖ 9 =  1 + 1·2^3 ◗, ◖ 279 = -9 + 9·2^5 ◗, ◖ 1115 = -1 + 279·2^2 ◗]
 1117 /3/ [◖ 1 ◗, ◖ 9 =  1 + 1·2^3 ◗, ◖ 279 = -9 + 9·2^5 ◗, ◖ 1117 =  1 + 279·2^2 ◗]
 1119 /3/ [◖ 1 ◗, ◖ 9 =  1 + 1·2^3 ◗, ◖ 35 = -1 + 9·2^2 ◗, ◖ 1119 = -1 + 35·2^5 ◗]
 1121 /3/ [◖ 1 ◗, ◖ 9 =  1 + 1·2^3 ◗, ◖ 35 = -1 + 9·2^2 ◗, ◖ 1121 =  1 + 35·2^5 ◗]
 1123 /3/ [◖ 1 ◗, ◖ 17 =  1 + 1·2^4 ◗, ◖ 561 =  17 + 17·2^5 ◗, ◖ 1123 =  1 + 561·2^1 ◗]
 1125 /3/ [◖ 1 ◗, ◖ 9 =  1 + 1·2^3 ◗, ◖ 279 = -9 + 9·2^5 ◗, ◖ 1125 =  9 + 279·2^2 ◗]
 1127 /3/ [◖ 1 ◗, ◖ 9 =  1 + 1·2^3 ◗, ◖ 71 = -1 + 9·2^3 ◗, ◖ 1127 = -9 + 71·2^4 ◗]
 1129 /3/ [◖ 1 ◗, ◖ 9 =  1 + 1·2^3 ◗, ◖ 35 = -1 + 9·2^2 ◗, ◖ 1129 =  9 + 35·2^5 ◗]
 1131 /4/ [◖ 1 ◗, ◖ 9 =  1 + 1·2^3 ◗, ◖ 71 = -1 + 9·2^3 ◗, ◖ 283 = -1 + 71·2^2 ◗, ◖ 1131 = -1 + 283·2^2 ◗]
 1133 /3/ [◖ 1 ◗, ◖ 9 =  1 + 1·2^3 ◗, ◖ 567 = -9 + 9·2^6 ◗, ◖ 1133 = -1 + 567·2^1 ◗]
 1135 /3/ [◖ 1 ◗, ◖ 9 =  1 + 1·2^3 ◗, ◖ 71 = -1 + 9·2^3 ◗, ◖ 1135 = -1 + 71·2^4 ◗]
 1137 /3/ [◖ 1 ◗, ◖ 9 =  1 + 1·2^3 ◗, ◖ 71 = -1 + 9·2^3 ◗, ◖ 1137 =  1 + 71·2^4 ◗]
 1139 /3/ [◖ 1 ◗, ◖ 9 =  1 + 1·2^3 ◗, ◖ 287 = -1 + 9·2^5 ◗, ◖ 1139 = -9 + 287·2^2 ◗]
 1141 /3/ [◖ 1 ◗, ◖ 9 =  1 + 1·2^3 ◗, ◖ 575 = -1 + 9·2^6 ◗, ◖ 1141 = -9 + 575·2^1 ◗]
 1143 /2/ [◖ 1 ◗, ◖ 9 =  1 + 1·2^3 ◗, ◖ 1143 = -9 + 9·2^7 ◗]
 1145 /3/ [◖ 1 ◗, ◖ 9 =  1 + 1·2^3 ◗, ◖ 143 = -1 + 9·2^4 ◗, ◖ 1145 =  1 + 143·2^3 ◗]
 1147 /3/ [◖ 1 ◗, ◖ 9 =  1 + 1·2^3 ◗, ◖ 287 = -1 + 9·2^5 ◗, ◖ 1147 = -1 + 287·2^2 ◗]
 1149 /3/ [◖ 1 ◗, ◖ 9 =  1 + 1·2^3 ◗, ◖ 287 = -1 + 9·2^5 ◗, ◖ 1149 =  1 + 287·2^2 ◗]
 1151 /2/ [◖ 1 ◗, ◖ 9 =  1 + 1·2^3 ◗, ◖ 1151 = -1 + 9·2^7 ◗]
".
Definition v2_18 : string := " 1153 /2/ [◖ 1 ◗, ◖ 9 =  1 + 1·2^3 ◗, ◖ 1153 =  1 + 9·2^7 ◗]
 1155 /3/ [◖ 1 ◗, ◖ 9 =  1 + 1·2^3 ◗, ◖ 289 =  1 + 9·2^5 ◗, ◖ 1155 = -1 + 289·2^2 ◗]
 1157 /3/ [◖ 1 ◗, ◖ 9 =  1 + 1·2^3 ◗, ◖ 289 =  1 + 9·2^5 ◗, ◖ 1157 =  1 + 289·2^2 ◗]
 1159 /3/ [◖ 1 ◗, ◖ 9 =  1 + 1·2^3 ◗, ◖ 145 =  1 + 9·2^4 ◗, ◖ 1159 = -1 + 145·2^3 ◗]
 1161 /2/ [◖ 1 ◗, ◖ 9 =  1 + 1·2^3 ◗, ◖ 1161 =  9 + 9·2^7 ◗]
 1163 /3/ [◖ 1 ◗, ◖ 9 =  1 + 1·2^3 ◗, ◖ 577 =  1 + 9·2^6 ◗, ◖ 1163 =  9 + 577·2^1 ◗]
 1165 /3/ [◖ 1 ◗, ◖ 9 =  1 + 1·2^3 ◗, ◖ 289 =  1 + 9·2^5 ◗, ◖ 1165 =  9 + 289·2^2 ◗]
 1167 /3/ [◖ 1 ◗, ◖ 9 =  1 + 1·2^3 ◗, ◖ 73 =  1 + 9·2^3 ◗, ◖ 1167 = -1 + 73·2^4 ◗]
 1169 /3/ [◖ 1 ◗, ◖ 9 =  1 + 1·2^3 ◗, ◖ 73 =  1 + 9·2^3 ◗, ◖ 1169 =  1 + 73·2^4 ◗]
 1171 /3/ [◖ 1 ◗, ◖ 9 =  1 + 1·2^3 ◗, ◖ 585 =  9 + 9·2^6 ◗, ◖ 1171 =  1 + 585·2^1 ◗]
 1173 /4/ [◖ 1 ◗, ◖ 9 =  1 + 1·2^3 ◗, ◖ 73 =  1 + 9·2^3 ◗, ◖ 293 =  1 + 73·2^2 ◗, ◖ 1173 =  1 + 293·2^2 ◗]
 1175 /3/ [◖ 1 ◗, ◖ 9 =  1 + 1·2^3 ◗, ◖ 37 =  1 + 9·2^2 ◗, ◖ 1175 = -9 + 37·2^5 ◗]
 1177 /3/ [◖ 1 ◗, ◖ 9 =  1 + 1·2^3 ◗, ◖ 73 =  1 + 9·2^3 ◗, ◖ 1177 =  9 + 73·2^4 ◗]
 1179 /3/ [◖ 1 ◗, ◖ 9 =  1 + 1·2^3 ◗, ◖ 297 =  9 + 9·2^5 ◗, ◖ 1179 = -9 + 297·2^2 ◗]
 1181 /4/ [◖ 1 ◗, ◖ 9 =  1 + 1·2^3 ◗, ◖ 37 =  1 + 9·2^2 ◗, ◖ 295 = -1 + 37·2^3 ◗, ◖ 1181 =  1 + 295·2^2 ◗]
 1183 /3/ [◖ 1 ◗, ◖ 9 =  1 + 1·2^3 ◗, ◖ 37 =  1 + 9·2^2 ◗, ◖ 1183 = -1 + 37·2^5 ◗]
 1185 /3/ [◖ 1 ◗, ◖ 9 =  1 + 1·2^3 ◗, ◖ 37 =  1 + 9·2^2 ◗, ◖ 1185 =  1 + 37·2^5 ◗]
 1187 /3/ [◖ 1 ◗, ◖ 9 =  1 + 1·2^3 ◗, ◖ 297 =  9 + 9·2^5 ◗, ◖ 1187 = -1 + 297·2^2 ◗]
 1189 /3/ [◖ 1 ◗, ◖ 9 =  1 + 1·2^3 ◗, ◖ 297 =  9 + 9·2^5 ◗, ◖ 1189 =  1 + 297·2^2 ◗]
 1191 /4/ [◖ 1 ◗, ◖ 9 =  1 + 1·2^3 ◗, ◖ 37 =  1 + 9·2^2 ◗, ◖ 149 =  1 + 37·2^2 ◗, ◖ 1191 = -1 + 149·2^3 ◗]
 1193 /3/ [◖ 1 ◗, ◖ 9 =  1 + 1·2^3 ◗, ◖ 37 =  1 + 9·2^2 ◗, ◖ 1193 =  9 + 37·2^5 ◗]
 1195 /3/ [◖ 1 ◗, ◖ 5 =  1 + 1·2^2 ◗, ◖ 75 = -5 + 5·2^4 ◗, ◖ 1195 = -5 + 75·2^4 ◗]
 1197 /3/ [◖ 1 ◗, ◖ 9 =  1 + 1·2^3 ◗, ◖ 297 =  9 + 9·2^5 ◗, ◖ 1197 =  9 + 297·2^2 ◗]
 1199 /3/ [◖ 1 ◗, ◖ 5 =  1 + 1·2^2 ◗, ◖ 75 = -5 + 5·2^4 ◗, ◖ 1199 = -1 + 75·2^4 ◗]
 1201 /3/ [◖ 1 ◗, ◖ 5 =  1 + 1·2^2 ◗, ◖ 75 = -5 + 5·2^4 ◗, ◖ 1201 =  1 + 75·2^4 ◗]
 1203 /4/ [◖ 1 ◗, ◖ 5 =  1 + 1·2^2 ◗, ◖ 75 = -5 + 5·2^4 ◗, ◖ 301 =  1 + 75·2^2 ◗, ◖ 1203 = -1 + 301·2^2 ◗]
 1205 /3/ [◖ 1 ◗, ◖ 5 =  1 + 1·2^2 ◗, ◖ 75 = -5 + 5·2^4 ◗, ◖ 1205 =  5 + 75·2^4 ◗]
 1207 /3/ [◖ 1 ◗, ◖ 9 =  1 + 1·2^3 ◗, ◖ 71 = -1 + 9·2^3 ◗, ◖ 1207 =  71 + 71·2^4 ◗]
 1209 /4/ [◖ 1 ◗, ◖ 5 =  1 + 1·2^2 ◗, ◖ 19 = -1 + 5·2^2 ◗, ◖ 151 = -1 + 19·2^3 ◗, ◖ 1209 =  1 + 151·2^3 ◗]
 1211 /3/ [◖ 1 ◗, ◖ 5 =  1 + 1·2^2 ◗, ◖ 19 = -1 + 5·2^2 ◗, ◖ 1211 = -5 + 19·2^6 ◗]
 1213 /3/ [◖ 1 ◗, ◖ 3 =  1 + 1·2^1 ◗, ◖ 189 = -3 + 3·2^6 ◗, ◖ 1213 =  189 + 1·2^10 ◗]
 1215 /3/ [◖ 1 ◗, ◖ 5 =  1 + 1·2^2 ◗, ◖ 19 = -1 + 5·2^2 ◗, ◖ 1215 = -1 + 19·2^6 ◗]
".
Definition v2_19 : string := " 1217 /3/ [◖ 1 ◗, ◖ 5 =  1 + 1·2^2 ◗, ◖ 19 = -1 + 5·2^2 ◗, ◖ 1217 =  1 + 19·2^6 ◗]
 1219 /3/ [◖ 1 ◗, ◖ 3 =  1 + 1·2^1 ◗, ◖ 195 =  3 + 3·2^6 ◗, ◖ 1219 =  195 + 1·2^10 ◗]
 1221 /3/ [◖ 1 ◗, ◖ 5 =  1 + 1·2^2 ◗, ◖ 19 = -1 + 5·2^2 ◗, ◖ 1221 =  5 + 19·2^6 ◗]
 1223 /3/ [◖ 1 ◗, ◖ 9 =  1 + 1·2^3 ◗, ◖ 153 =  9 + 9·2^4 ◗, ◖ 1223 = -1 + 153·2^3 ◗]
 1225 /3/ [◖ 1 ◗, ◖ 9 =  1 + 1·2^3 ◗, ◖ 153 =  9 + 9·2^4 ◗, ◖ 1225 =  1 + 153·2^3 ◗]
 1227 /4/ [◖ 1 ◗, ◖ 9 =  1 + 1·2^3 ◗, ◖ 153 =  9 + 9·2^4 ◗, ◖ 307 =  1 + 153·2^1 ◗, ◖ 1227 = -1 + 307·2^2 ◗]
 1229 /4/ [◖ 1 ◗, ◖ 9 =  1 + 1·2^3 ◗, ◖ 153 =  9 + 9·2^4 ◗, ◖ 307 =  1 + 153·2^1 ◗, ◖ 1229 =  1 + 307·2^2 ◗]
 1231 /3/ [◖ 1 ◗, ◖ 15 = -1 + 1·2^4 ◗, ◖ 975 =  15 + 15·2^6 ◗, ◖ 1231 =  975 + 1·2^8 ◗]
 1233 /3/ [◖ 1 ◗, ◖ 17 =  1 + 1·2^4 ◗, ◖ 1105 =  17 + 17·2^6 ◗, ◖ 1233 =  1105 + 1·2^7 ◗]
 1235 /3/ [◖ 1 ◗, ◖ 5 =  1 + 1·2^2 ◗, ◖ 155 = -5 + 5·2^5 ◗, ◖ 1235 = -5 + 155·2^3 ◗]
 1237 /4/ [◖ 1 ◗, ◖ 5 =  1 + 1·2^2 ◗, ◖ 155 = -5 + 5·2^5 ◗, ◖ 309 = -1 + 155·2^1 ◗, ◖ 1237 =  1 + 309·2^2 ◗]
 1239 /3/ [◖ 1 ◗, ◖ 5 =  1 + 1·2^2 ◗, ◖ 155 = -5 + 5·2^5 ◗, ◖ 1239 = -1 + 155·2^3 ◗]
 1241 /3/ [◖ 1 ◗, ◖ 5 =  1 + 1·2^2 ◗, ◖ 155 = -5 + 5·2^5 ◗, ◖ 1241 =  1 + 155·2^3 ◗]
 1243 /3/ [◖ 1 ◗, ◖ 5 =  1 + 1·2^2 ◗, ◖ 39 = -1 + 5·2^3 ◗, ◖ 1243 = -5 + 39·2^5 ◗]
 1245 /3/ [◖ 1 ◗, ◖ 5 =  1 + 1·2^2 ◗, ◖ 155 = -5 + 5·2^5 ◗, ◖ 1245 =  5 + 155·2^3 ◗]
 1247 /3/ [◖ 1 ◗, ◖ 5 =  1 + 1·2^2 ◗, ◖ 39 = -1 + 5·2^3 ◗, ◖ 1247 = -1 + 39·2^5 ◗]
 1249 /3/ [◖ 1 ◗, ◖ 5 =  1 + 1·2^2 ◗, ◖ 39 = -1 + 5·2^3 ◗, ◖ 1249 =  1 + 39·2^5 ◗]
 1251 /4/ [◖ 1 ◗, ◖ 5 =  1 + 1·2^2 ◗, ◖ 39 = -1 + 5·2^3 ◗, ◖ 313 =  1 + 39·2^3 ◗, ◖ 1251 = -1 + 313·2^2 ◗]
 1253 /3/ [◖ 1 ◗, ◖ 5 =  1 + 1·2^2 ◗, ◖ 39 = -1 + 5·2^3 ◗, ◖ 1253 =  5 + 39·2^5 ◗]
 1255 /3/ [◖ 1 ◗, ◖ 7 = -1 + 1·2^3 ◗, ◖ 231 =  7 + 7·2^5 ◗, ◖ 1255 =  231 + 1·2^10 ◗]
 1257 /4/ [◖ 1 ◗, ◖ 5 =  1 + 1·2^2 ◗, ◖ 39 = -1 + 5·2^3 ◗, ◖ 157 =  1 + 39·2^2 ◗, ◖ 1257 =  1 + 157·2^3 ◗]
 1259 /3/ [◖ 1 ◗, ◖ 5 =  1 + 1·2^2 ◗, ◖ 315 = -5 + 5·2^6 ◗, ◖ 1259 = -1 + 315·2^2 ◗]
 1261 /3/ [◖ 1 ◗, ◖ 5 =  1 + 1·2^2 ◗, ◖ 315 = -5 + 5·2^6 ◗, ◖ 1261 =  1 + 315·2^2 ◗]
 1263 /3/ [◖ 1 ◗, ◖ 5 =  1 + 1·2^2 ◗, ◖ 79 = -1 + 5·2^4 ◗, ◖ 1263 = -1 + 79·2^4 ◗]
 1265 /3/ [◖ 1 ◗, ◖ 5 =  1 + 1·2^2 ◗, ◖ 79 = -1 + 5·2^4 ◗, ◖ 1265 =  1 + 79·2^4 ◗]
 1267 /3/ [◖ 1 ◗, ◖ 5 =  1 + 1·2^2 ◗, ◖ 159 = -1 + 5·2^5 ◗, ◖ 1267 = -5 + 159·2^3 ◗]
 1269 /3/ [◖ 1 ◗, ◖ 5 =  1 + 1·2^2 ◗, ◖ 635 = -5 + 5·2^7 ◗, ◖ 1269 = -1 + 635·2^1 ◗]
 1271 /3/ [◖ 1 ◗, ◖ 5 =  1 + 1·2^2 ◗, ◖ 159 = -1 + 5·2^5 ◗, ◖ 1271 = -1 + 159·2^3 ◗]
 1273 /3/ [◖ 1 ◗, ◖ 5 =  1 + 1·2^2 ◗, ◖ 159 = -1 + 5·2^5 ◗, ◖ 1273 =  1 + 159·2^3 ◗]
 1275 /2/ [◖ 1 ◗, ◖ 5 =  1 + 1·2^2 ◗, ◖ 1275 = -5 + 5·2^8 ◗]
 1277 /3/ [◖ 1 ◗, ◖ 5 =  1 + 1·2^2 ◗, ◖ 319 = -1 + 5·2^6 ◗, ◖ 1277 =  1 + 319·2^2 ◗]
 1279 /2/ [◖ 1 ◗, ◖ 5 =  1 + 1·2^2 ◗, ◖ 1279 = -1 + 5·2^8 ◗]
".
Definition v2_20 : string := " 1281 /2/ [◖ 1 ◗, ◖ 5 =  1 + 1·2^2 ◗, ◖ 1281 =  1 + 5·2^8 ◗]
 1283 /3/ [◖ 1 ◗, ◖ 5 =  1 + 1·2^2 ◗, ◖ 321 =  1 + 5·2^6 ◗, ◖ 1283 = -1 + 321·2^2 ◗]
 1285 /2/ [◖ 1 ◗, ◖ 5 =  1 + 1·2^2 ◗, ◖ 1285 =  5 + 5·2^8 ◗]
 1287 /3/ [◖ 1 ◗, ◖ 5 =  1 + 1·2^2 ◗, ◖ 161 =  1 + 5·2^5 ◗, ◖ 1287 = -1 + 161·2^3 ◗]
 1289 /3/ [◖ 1 ◗, ◖ 5 =  1 + 1·2^2 ◗, ◖ 161 =  1 + 5·2^5 ◗, ◖ 1289 =  1 + 161·2^3 ◗]
 1291 /3/ [◖ 1 ◗, ◖ 5 =  1 + 1·2^2 ◗, ◖ 645 =  5 + 5·2^7 ◗, ◖ 1291 =  1 + 645·2^1 ◗]
 1293 /3/ [◖ 1 ◗, ◖ 5 =  1 + 1·2^2 ◗, ◖ 161 =  1 + 5·2^5 ◗, ◖ 1293 =  5 + 161·2^3 ◗]
 1295 /3/ [◖ 1 ◗, ◖ 5 =  1 + 1·2^2 ◗, ◖ 81 =  1 + 5·2^4 ◗, ◖ 1295 = -1 + 81·2^4 ◗]
 1297 /3/ [◖ 1 ◗, ◖ 5 =  1 + 1·2^2 ◗, ◖ 81 =  1 + 5·2^4 ◗, ◖ 1297 =  1 + 81·2^4 ◗]
 1299 /3/ [◖ 1 ◗, ◖ 5 =  1 + 1·2^2 ◗, ◖ 325 =  5 + 5·2^6 ◗, ◖ 1299 = -1 + 325·2^2 ◗]
 1301 /3/ [◖ 1 ◗, ◖ 5 =  1 + 1·2^2 ◗, ◖ 325 =  5 + 5·2^6 ◗, ◖ 1301 =  1 + 325·2^2 ◗]
 1303 /3/ [◖ 1 ◗, ◖ 9 =  1 + 1·2^3 ◗, ◖ 279 = -9 + 9·2^5 ◗, ◖ 1303 =  279 + 1·2^10 ◗]
 1305 /4/ [◖ 1 ◗, ◖ 5 =  1 + 1·2^2 ◗, ◖ 41 =  1 + 5·2^3 ◗, ◖ 163 = -1 + 41·2^2 ◗, ◖ 1305 =  1 + 163·2^3 ◗]
 1307 /3/ [◖ 1 ◗, ◖ 5 =  1 + 1·2^2 ◗, ◖ 41 =  1 + 5·2^3 ◗, ◖ 1307 = -5 + 41·2^5 ◗]
 1309 /4/ [◖ 1 ◗, ◖ 5 =  1 + 1·2^2 ◗, ◖ 41 =  1 + 5·2^3 ◗, ◖ 327 = -1 + 41·2^3 ◗, ◖ 1309 =  1 + 327·2^2 ◗]
 1311 /3/ [◖ 1 ◗, ◖ 5 =  1 + 1·2^2 ◗, ◖ 41 =  1 + 5·2^3 ◗, ◖ 1311 = -1 + 41·2^5 ◗]
 1313 /3/ [◖ 1 ◗, ◖ 5 =  1 + 1·2^2 ◗, ◖ 41 =  1 + 5·2^3 ◗, ◖ 1313 =  1 + 41·2^5 ◗]
 1315 /3/ [◖ 1 ◗, ◖ 5 =  1 + 1·2^2 ◗, ◖ 165 =  5 + 5·2^5 ◗, ◖ 1315 = -5 + 165·2^3 ◗]
 1317 /3/ [◖ 1 ◗, ◖ 5 =  1 + 1·2^2 ◗, ◖ 41 =  1 + 5·2^3 ◗, ◖ 1317 =  5 + 41·2^5 ◗]
 1319 /3/ [◖ 1 ◗, ◖ 5 =  1 + 1·2^2 ◗, ◖ 165 =  5 + 5·2^5 ◗, ◖ 1319 = -1 + 165·2^3 ◗]
 1321 /3/ [◖ 1 ◗, ◖ 5 =  1 + 1·2^2 ◗, ◖ 165 =  5 + 5·2^5 ◗, ◖ 1321 =  1 + 165·2^3 ◗]
 1323 /3/ [◖ 1 ◗, ◖ 5 =  1 + 1·2^2 ◗, ◖ 21 =  1 + 5·2^2 ◗, ◖ 1323 = -21 + 21·2^6 ◗]
 1325 /3/ [◖ 1 ◗, ◖ 5 =  1 + 1·2^2 ◗, ◖ 165 =  5 + 5·2^5 ◗, ◖ 1325 =  5 + 165·2^3 ◗]
 1327 /3/ [◖ 1 ◗, ◖ 17 =  1 + 1·2^4 ◗, ◖ 1071 = -17 + 17·2^6 ◗, ◖ 1327 =  1071 + 1·2^8 ◗]
 1329 /4/ [◖ 1 ◗, ◖ 5 =  1 + 1·2^2 ◗, ◖ 21 =  1 + 5·2^2 ◗, ◖ 83 = -1 + 21·2^2 ◗, ◖ 1329 =  1 + 83·2^4 ◗]
 1331 /4/ [◖ 1 ◗, ◖ 5 =  1 + 1·2^2 ◗, ◖ 41 =  1 + 5·2^3 ◗, ◖ 333 =  5 + 41·2^3 ◗, ◖ 1331 = -1 + 333·2^2 ◗]
 1333 /4/ [◖ 1 ◗, ◖ 5 =  1 + 1·2^2 ◗, ◖ 21 =  1 + 5·2^2 ◗, ◖ 667 = -5 + 21·2^5 ◗, ◖ 1333 = -1 + 667·2^1 ◗]
 1335 /4/ [◖ 1 ◗, ◖ 5 =  1 + 1·2^2 ◗, ◖ 21 =  1 + 5·2^2 ◗, ◖ 167 = -1 + 21·2^3 ◗, ◖ 1335 = -1 + 167·2^3 ◗]
 1337 /3/ [◖ 1 ◗, ◖ 3 =  1 + 1·2^1 ◗, ◖ 191 = -1 + 3·2^6 ◗, ◖ 1337 = -191 + 191·2^3 ◗]
 1339 /3/ [◖ 1 ◗, ◖ 5 =  1 + 1·2^2 ◗, ◖ 21 =  1 + 5·2^2 ◗, ◖ 1339 = -5 + 21·2^6 ◗]
 1341 /3/ [◖ 1 ◗, ◖ 7 = -1 + 1·2^3 ◗, ◖ 447 = -1 + 7·2^6 ◗, ◖ 1341 =  447 + 447·2^1 ◗]
 1343 /3/ [◖ 1 ◗, ◖ 5 =  1 + 1·2^2 ◗, ◖ 21 =  1 + 5·2^2 ◗, ◖ 1343 = -1 + 21·2^6 ◗]
".
Definition v2_21 : string := " 1345 /3/ [◖ 1 ◗, ◖ 5 =  1 + 1·2^2 ◗, ◖ 21 =  1 + 5·2^2 ◗, ◖ 1345 =  1 + 21·2^6 ◗]
 1347 /3/ [◖ 1 ◗, ◖ 7 = -1 + 1·2^3 ◗, ◖ 449 =  1 + 7·2^6 ◗, ◖ 1347 =  449 + 449·2^1 ◗]
 1349 /3/ [◖ 1 ◗, ◖ 5 =  1 + 1·2^2 ◗, ◖ 21 =  1 + 5·2^2 ◗, ◖ 1349 =  5 + 21·2^6 ◗]
 1351 /3/ [◖ 1 ◗, ◖ 3 =  1 + 1·2^1 ◗, ◖ 193 =  1 + 3·2^6 ◗, ◖ 1351 = -193 + 193·2^3 ◗]
 1353 /4/ [◖ 1 ◗, ◖ 5 =  1 + 1·2^2 ◗, ◖ 21 =  1 + 5·2^2 ◗, ◖ 169 =  1 + 21·2^3 ◗, ◖ 1353 =  1 + 169·2^3 ◗]
 1355 /3/ [◖ 1 ◗, ◖ 5 =  1 + 1·2^2 ◗, ◖ 85 =  5 + 5·2^4 ◗, ◖ 1355 = -5 + 85·2^4 ◗]
 1357 /4/ [◖ 1 ◗, ◖ 5 =  1 + 1·2^2 ◗, ◖ 85 =  5 + 5·2^4 ◗, ◖ 339 = -1 + 85·2^2 ◗, ◖ 1357 =  1 + 339·2^2 ◗]
 1359 /3/ [◖ 1 ◗, ◖ 5 =  1 + 1·2^2 ◗, ◖ 85 =  5 + 5·2^4 ◗, ◖ 1359 = -1 + 85·2^4 ◗]
 1361 /3/ [◖ 1 ◗, ◖ 5 =  1 + 1·2^2 ◗, ◖ 85 =  5 + 5·2^4 ◗, ◖ 1361 =  1 + 85·2^4 ◗]
 1363 /4/ [◖ 1 ◗, ◖ 5 =  1 + 1·2^2 ◗, ◖ 85 =  5 + 5·2^4 ◗, ◖ 341 =  1 + 85·2^2 ◗, ◖ 1363 = -1 + 341·2^2 ◗]
 1365 /3/ [◖ 1 ◗, ◖ 5 =  1 + 1·2^2 ◗, ◖ 85 =  5 + 5·2^4 ◗, ◖ 1365 =  5 + 85·2^4 ◗]
 1367 /4/ [◖ 1 ◗, ◖ 5 =  1 + 1·2^2 ◗, ◖ 85 =  5 + 5·2^4 ◗, ◖ 171 =  1 + 85·2^1 ◗, ◖ 1367 = -1 + 171·2^3 ◗]
 1369 /4/ [◖ 1 ◗, ◖ 5 =  1 + 1·2^2 ◗, ◖ 85 =  5 + 5·2^4 ◗, ◖ 171 =  1 + 85·2^1 ◗, ◖ 1369 =  1 + 171·2^3 ◗]
 1371 /4/ [◖ 1 ◗, ◖ 5 =  1 + 1·2^2 ◗, ◖ 85 =  5 + 5·2^4 ◗, ◖ 685 =  5 + 85·2^3 ◗, ◖ 1371 =  1 + 685·2^1 ◗]
 1373 /4/ [◖ 1 ◗, ◖ 3 =  1 + 1·2^1 ◗, ◖ 49 =  1 + 3·2^4 ◗, ◖ 343 = -49 + 49·2^3 ◗, ◖ 1373 =  1 + 343·2^2 ◗]
 1375 /4/ [◖ 1 ◗, ◖ 3 =  1 + 1·2^1 ◗, ◖ 11 = -1 + 3·2^2 ◗, ◖ 43 = -1 + 11·2^2 ◗, ◖ 1375 = -1 + 43·2^5 ◗]
 1377 /4/ [◖ 1 ◗, ◖ 3 =  1 + 1·2^1 ◗, ◖ 11 = -1 + 3·2^2 ◗, ◖ 43 = -1 + 11·2^2 ◗, ◖ 1377 =  1 + 43·2^5 ◗]
 1379 /4/ [◖ 1 ◗, ◖ 7 = -1 + 1·2^3 ◗, ◖ 217 = -7 + 7·2^5 ◗, ◖ 345 =  217 + 1·2^7 ◗, ◖ 1379 = -1 + 345·2^2 ◗]
 1381 /4/ [◖ 1 ◗, ◖ 7 = -1 + 1·2^3 ◗, ◖ 217 = -7 + 7·2^5 ◗, ◖ 345 =  217 + 1·2^7 ◗, ◖ 1381 =  1 + 345·2^2 ◗]
 1383 /4/ [◖ 1 ◗, ◖ 3 =  1 + 1·2^1 ◗, ◖ 11 = -1 + 3·2^2 ◗, ◖ 173 = -3 + 11·2^4 ◗, ◖ 1383 = -1 + 173·2^3 ◗]
 1385 /4/ [◖ 1 ◗, ◖ 3 =  1 + 1·2^1 ◗, ◖ 11 = -1 + 3·2^2 ◗, ◖ 173 = -3 + 11·2^4 ◗, ◖ 1385 =  1 + 173·2^3 ◗]
 1387 /4/ [◖ 1 ◗, ◖ 3 =  1 + 1·2^1 ◗, ◖ 11 = -1 + 3·2^2 ◗, ◖ 693 = -11 + 11·2^6 ◗, ◖ 1387 =  1 + 693·2^1 ◗]
 1389 /4/ [◖ 1 ◗, ◖ 5 =  1 + 1·2^2 ◗, ◖ 165 =  5 + 5·2^5 ◗, ◖ 347 = -165 + 1·2^9 ◗, ◖ 1389 =  1 + 347·2^2 ◗]
 1391 /4/ [◖ 1 ◗, ◖ 3 =  1 + 1·2^1 ◗, ◖ 11 = -1 + 3·2^2 ◗, ◖ 87 = -1 + 11·2^3 ◗, ◖ 1391 = -1 + 87·2^4 ◗]
 1393 /3/ [◖ 1 ◗, ◖ 15 = -1 + 1·2^4 ◗, ◖ 1905 = -15 + 15·2^7 ◗, ◖ 1393 =  1905 - 1·2^9 ◗]
 1395 /3/ [◖ 1 ◗, ◖ 15 = -1 + 1·2^4 ◗, ◖ 465 = -15 + 15·2^5 ◗, ◖ 1395 = -465 + 465·2^2 ◗]
 1397 /3/ [◖ 1 ◗, ◖ 3 =  1 + 1·2^1 ◗, ◖ 11 = -1 + 3·2^2 ◗, ◖ 1397 = -11 + 11·2^7 ◗]
 1399 /3/ [◖ 1 ◗, ◖ 9 =  1 + 1·2^3 ◗, ◖ 1143 = -9 + 9·2^7 ◗, ◖ 1399 =  1143 + 1·2^8 ◗]
 1401 /3/ [◖ 1 ◗, ◖ 7 = -1 + 1·2^3 ◗, ◖ 889 = -7 + 7·2^7 ◗, ◖ 1401 =  889 + 1·2^9 ◗]
 1403 /3/ [◖ 1 ◗, ◖ 5 =  1 + 1·2^2 ◗, ◖ 645 =  5 + 5·2^7 ◗, ◖ 1403 = -645 + 1·2^11 ◗]
 1405 /3/ [◖ 1 ◗, ◖ 3 =  1 + 1·2^1 ◗, ◖ 11 = -1 + 3·2^2 ◗, ◖ 1405 = -3 + 11·2^7 ◗]
 1407 /3/ [◖ 1 ◗, ◖ 3 =  1 + 1·2^1 ◗, ◖ 11 = -1 + 3·2^2 ◗, ◖ 1407 = -1 + 11·2^7 ◗]
".
Definition v2_22 : string := " 1409 /3/ [◖ 1 ◗, ◖ 3 =  1 + 1·2^1 ◗, ◖ 11 = -1 + 3·2^2 ◗, ◖ 1409 =  1 + 11·2^7 ◗]
 1411 /3/ [◖ 1 ◗, ◖ 3 =  1 + 1·2^1 ◗, ◖ 11 = -1 + 3·2^2 ◗, ◖ 1411 =  3 + 11·2^7 ◗]
 1413 /3/ [◖ 1 ◗, ◖ 5 =  1 + 1·2^2 ◗, ◖ 635 = -5 + 5·2^7 ◗, ◖ 1413 = -635 + 1·2^11 ◗]
 1415 /3/ [◖ 1 ◗, ◖ 7 = -1 + 1·2^3 ◗, ◖ 903 =  7 + 7·2^7 ◗, ◖ 1415 =  903 + 1·2^9 ◗]
 1417 /3/ [◖ 1 ◗, ◖ 9 =  1 + 1·2^3 ◗, ◖ 1161 =  9 + 9·2^7 ◗, ◖ 1417 =  1161 + 1·2^8 ◗]
 1419 /3/ [◖ 1 ◗, ◖ 3 =  1 + 1·2^1 ◗, ◖ 11 = -1 + 3·2^2 ◗, ◖ 1419 =  11 + 11·2^7 ◗]
 1421 /4/ [◖ 1 ◗, ◖ 3 =  1 + 1·2^1 ◗, ◖ 11 = -1 + 3·2^2 ◗, ◖ 355 =  3 + 11·2^5 ◗, ◖ 1421 =  1 + 355·2^2 ◗]
 1423 /3/ [◖ 1 ◗, ◖ 15 = -1 + 1·2^4 ◗, ◖ 1935 =  15 + 15·2^7 ◗, ◖ 1423 =  1935 - 1·2^9 ◗]
 1425 /3/ [◖ 1 ◗, ◖ 3 =  1 + 1·2^1 ◗, ◖ 95 = -1 + 3·2^5 ◗, ◖ 1425 = -95 + 95·2^4 ◗]
 1427 /4/ [◖ 1 ◗, ◖ 3 =  1 + 1·2^1 ◗, ◖ 45 = -3 + 3·2^4 ◗, ◖ 357 = -3 + 45·2^3 ◗, ◖ 1427 = -1 + 357·2^2 ◗]
 1429 /4/ [◖ 1 ◗, ◖ 3 =  1 + 1·2^1 ◗, ◖ 45 = -3 + 3·2^4 ◗, ◖ 357 = -3 + 45·2^3 ◗, ◖ 1429 =  1 + 357·2^2 ◗]
 1431 /3/ [◖ 1 ◗, ◖ 5 =  1 + 1·2^2 ◗, ◖ 159 = -1 + 5·2^5 ◗, ◖ 1431 =  159 + 159·2^3 ◗]
 1433 /4/ [◖ 1 ◗, ◖ 3 =  1 + 1·2^1 ◗, ◖ 45 = -3 + 3·2^4 ◗, ◖ 179 = -1 + 45·2^2 ◗, ◖ 1433 =  1 + 179·2^3 ◗]
 1435 /3/ [◖ 1 ◗, ◖ 9 =  1 + 1·2^3 ◗, ◖ 287 = -1 + 9·2^5 ◗, ◖ 1435 =  287 + 287·2^2 ◗]
 1437 /3/ [◖ 1 ◗, ◖ 3 =  1 + 1·2^1 ◗, ◖ 45 = -3 + 3·2^4 ◗, ◖ 1437 = -3 + 45·2^5 ◗]
 1439 /3/ [◖ 1 ◗, ◖ 3 =  1 + 1·2^1 ◗, ◖ 45 = -3 + 3·2^4 ◗, ◖ 1439 = -1 + 45·2^5 ◗]
 1441 /3/ [◖ 1 ◗, ◖ 3 =  1 + 1·2^1 ◗, ◖ 45 = -3 + 3·2^4 ◗, ◖ 1441 =  1 + 45·2^5 ◗]
 1443 /3/ [◖ 1 ◗, ◖ 3 =  1 + 1·2^1 ◗, ◖ 45 = -3 + 3·2^4 ◗, ◖ 1443 =  3 + 45·2^5 ◗]
 1445 /3/ [◖ 1 ◗, ◖ 9 =  1 + 1·2^3 ◗, ◖ 289 =  1 + 9·2^5 ◗, ◖ 1445 =  289 + 289·2^2 ◗]
 1447 /4/ [◖ 1 ◗, ◖ 3 =  1 + 1·2^1 ◗, ◖ 45 = -3 + 3·2^4 ◗, ◖ 181 =  1 + 45·2^2 ◗, ◖ 1447 = -1 + 181·2^3 ◗]
 1449 /3/ [◖ 1 ◗, ◖ 3 =  1 + 1·2^1 ◗, ◖ 23 = -1 + 3·2^3 ◗, ◖ 1449 = -23 + 23·2^6 ◗]
 1451 /4/ [◖ 1 ◗, ◖ 3 =  1 + 1·2^1 ◗, ◖ 45 = -3 + 3·2^4 ◗, ◖ 363 =  3 + 45·2^3 ◗, ◖ 1451 = -1 + 363·2^2 ◗]
 1453 /4/ [◖ 1 ◗, ◖ 3 =  1 + 1·2^1 ◗, ◖ 45 = -3 + 3·2^4 ◗, ◖ 363 =  3 + 45·2^3 ◗, ◖ 1453 =  1 + 363·2^2 ◗]
 1455 /3/ [◖ 1 ◗, ◖ 3 =  1 + 1·2^1 ◗, ◖ 97 =  1 + 3·2^5 ◗, ◖ 1455 = -97 + 97·2^4 ◗]
 1457 /3/ [◖ 1 ◗, ◖ 15 = -1 + 1·2^4 ◗, ◖ 945 = -15 + 15·2^6 ◗, ◖ 1457 =  945 + 1·2^9 ◗]
 1459 /4/ [◖ 1 ◗, ◖ 3 =  1 + 1·2^1 ◗, ◖ 23 = -1 + 3·2^3 ◗, ◖ 365 = -3 + 23·2^4 ◗, ◖ 1459 = -1 + 365·2^2 ◗]
 1461 /4/ [◖ 1 ◗, ◖ 3 =  1 + 1·2^1 ◗, ◖ 23 = -1 + 3·2^3 ◗, ◖ 365 = -3 + 23·2^4 ◗, ◖ 1461 =  1 + 365·2^2 ◗]
 1463 /3/ [◖ 1 ◗, ◖ 9 =  1 + 1·2^3 ◗, ◖ 585 =  9 + 9·2^6 ◗, ◖ 1463 = -585 + 1·2^11 ◗]
 1465 /3/ [◖ 1 ◗, ◖ 7 = -1 + 1·2^3 ◗, ◖ 441 = -7 + 7·2^6 ◗, ◖ 1465 =  441 + 1·2^10 ◗]
 1467 /4/ [◖ 1 ◗, ◖ 3 =  1 + 1·2^1 ◗, ◖ 23 = -1 + 3·2^3 ◗, ◖ 367 = -1 + 23·2^4 ◗, ◖ 1467 = -1 + 367·2^2 ◗]
 1469 /3/ [◖ 1 ◗, ◖ 3 =  1 + 1·2^1 ◗, ◖ 23 = -1 + 3·2^3 ◗, ◖ 1469 = -3 + 23·2^6 ◗]
 1471 /3/ [◖ 1 ◗, ◖ 3 =  1 + 1·2^1 ◗, ◖ 23 = -1 + 3·2^3 ◗, ◖ 1471 = -1 + 23·2^6 ◗]
".
Definition v2_23 : string := " 1473 /3/ [◖ 1 ◗, ◖ 3 =  1 + 1·2^1 ◗, ◖ 23 = -1 + 3·2^3 ◗, ◖ 1473 =  1 + 23·2^6 ◗]
 1475 /3/ [◖ 1 ◗, ◖ 3 =  1 + 1·2^1 ◗, ◖ 23 = -1 + 3·2^3 ◗, ◖ 1475 =  3 + 23·2^6 ◗]
 1477 /4/ [◖ 1 ◗, ◖ 3 =  1 + 1·2^1 ◗, ◖ 23 = -1 + 3·2^3 ◗, ◖ 369 =  1 + 23·2^4 ◗, ◖ 1477 =  1 + 369·2^2 ◗]
 1479 /3/ [◖ 1 ◗, ◖ 7 = -1 + 1·2^3 ◗, ◖ 455 =  7 + 7·2^6 ◗, ◖ 1479 =  455 + 1·2^10 ◗]
 1481 /3/ [◖ 1 ◗, ◖ 9 =  1 + 1·2^3 ◗, ◖ 567 = -9 + 9·2^6 ◗, ◖ 1481 = -567 + 1·2^11 ◗]
 1483 /4/ [◖ 1 ◗, ◖ 3 =  1 + 1·2^1 ◗, ◖ 93 = -3 + 3·2^5 ◗, ◖ 371 = -1 + 93·2^2 ◗, ◖ 1483 = -1 + 371·2^2 ◗]
 1485 /3/ [◖ 1 ◗, ◖ 3 =  1 + 1·2^1 ◗, ◖ 93 = -3 + 3·2^5 ◗, ◖ 1485 = -3 + 93·2^4 ◗]
 1487 /3/ [◖ 1 ◗, ◖ 3 =  1 + 1·2^1 ◗, ◖ 93 = -3 + 3·2^5 ◗, ◖ 1487 = -1 + 93·2^4 ◗]
 1489 /3/ [◖ 1 ◗, ◖ 3 =  1 + 1·2^1 ◗, ◖ 93 = -3 + 3·2^5 ◗, ◖ 1489 =  1 + 93·2^4 ◗]
 1491 /3/ [◖ 1 ◗, ◖ 3 =  1 + 1·2^1 ◗, ◖ 93 = -3 + 3·2^5 ◗, ◖ 1491 =  3 + 93·2^4 ◗]
 1493 /4/ [◖ 1 ◗, ◖ 3 =  1 + 1·2^1 ◗, ◖ 93 = -3 + 3·2^5 ◗, ◖ 373 =  1 + 93·2^2 ◗, ◖ 1493 =  1 + 373·2^2 ◗]
 1495 /3/ [◖ 1 ◗, ◖ 3 =  1 + 1·2^1 ◗, ◖ 23 = -1 + 3·2^3 ◗, ◖ 1495 =  23 + 23·2^6 ◗]
 1497 /4/ [◖ 1 ◗, ◖ 3 =  1 + 1·2^1 ◗, ◖ 47 = -1 + 3·2^4 ◗, ◖ 187 = -1 + 47·2^2 ◗, ◖ 1497 =  1 + 187·2^3 ◗]
 1499 /4/ [◖ 1 ◗, ◖ 3 =  1 + 1·2^1 ◗, ◖ 47 = -1 + 3·2^4 ◗, ◖ 375 = -1 + 47·2^3 ◗, ◖ 1499 = -1 + 375·2^2 ◗]
 1501 /3/ [◖ 1 ◗, ◖ 3 =  1 + 1·2^1 ◗, ◖ 47 = -1 + 3·2^4 ◗, ◖ 1501 = -3 + 47·2^5 ◗]
 1503 /3/ [◖ 1 ◗, ◖ 3 =  1 + 1·2^1 ◗, ◖ 47 = -1 + 3·2^4 ◗, ◖ 1503 = -1 + 47·2^5 ◗]
 1505 /3/ [◖ 1 ◗, ◖ 3 =  1 + 1·2^1 ◗, ◖ 47 = -1 + 3·2^4 ◗, ◖ 1505 =  1 + 47·2^5 ◗]
 1507 /3/ [◖ 1 ◗, ◖ 3 =  1 + 1·2^1 ◗, ◖ 47 = -1 + 3·2^4 ◗, ◖ 1507 =  3 + 47·2^5 ◗]
 1509 /3/ [◖ 1 ◗, ◖ 3 =  1 + 1·2^1 ◗, ◖ 189 = -3 + 3·2^6 ◗, ◖ 1509 = -3 + 189·2^3 ◗]
 1511 /3/ [◖ 1 ◗, ◖ 3 =  1 + 1·2^1 ◗, ◖ 189 = -3 + 3·2^6 ◗, ◖ 1511 = -1 + 189·2^3 ◗]
 1513 /3/ [◖ 1 ◗, ◖ 3 =  1 + 1·2^1 ◗, ◖ 189 = -3 + 3·2^6 ◗, ◖ 1513 =  1 + 189·2^3 ◗]
 1515 /3/ [◖ 1 ◗, ◖ 3 =  1 + 1·2^1 ◗, ◖ 189 = -3 + 3·2^6 ◗, ◖ 1515 =  3 + 189·2^3 ◗]
 1517 /3/ [◖ 1 ◗, ◖ 3 =  1 + 1·2^1 ◗, ◖ 95 = -1 + 3·2^5 ◗, ◖ 1517 = -3 + 95·2^4 ◗]
 1519 /3/ [◖ 1 ◗, ◖ 3 =  1 + 1·2^1 ◗, ◖ 95 = -1 + 3·2^5 ◗, ◖ 1519 = -1 + 95·2^4 ◗]
 1521 /3/ [◖ 1 ◗, ◖ 3 =  1 + 1·2^1 ◗, ◖ 95 = -1 + 3·2^5 ◗, ◖ 1521 =  1 + 95·2^4 ◗]
 1523 /3/ [◖ 1 ◗, ◖ 3 =  1 + 1·2^1 ◗, ◖ 381 = -3 + 3·2^7 ◗, ◖ 1523 = -1 + 381·2^2 ◗]
 1525 /3/ [◖ 1 ◗, ◖ 3 =  1 + 1·2^1 ◗, ◖ 381 = -3 + 3·2^7 ◗, ◖ 1525 =  1 + 381·2^2 ◗]
 1527 /3/ [◖ 1 ◗, ◖ 3 =  1 + 1·2^1 ◗, ◖ 191 = -1 + 3·2^6 ◗, ◖ 1527 = -1 + 191·2^3 ◗]
 1529 /3/ [◖ 1 ◗, ◖ 3 =  1 + 1·2^1 ◗, ◖ 191 = -1 + 3·2^6 ◗, ◖ 1529 =  1 + 191·2^3 ◗]
 1531 /3/ [◖ 1 ◗, ◖ 3 =  1 + 1·2^1 ◗, ◖ 383 = -1 + 3·2^7 ◗, ◖ 1531 = -1 + 383·2^2 ◗]
 1533 /2/ [◖ 1 ◗, ◖ 3 =  1 + 1·2^1 ◗, ◖ 1533 = -3 + 3·2^9 ◗]
 1535 /2/ [◖ 1 ◗, ◖ 3 =  1 + 1·2^1 ◗, ◖ 1535 = -1 + 3·2^9 ◗]
".
Definition v2_24 : string := " 1537 /2/ [◖ 1 ◗, ◖ 3 =  1 + 1·2^1 ◗, ◖ 1537 =  1 + 3·2^9 ◗]
 1539 /2/ [◖ 1 ◗, ◖ 3 =  1 + 1·2^1 ◗, ◖ 1539 =  3 + 3·2^9 ◗]
 1541 /3/ [◖ 1 ◗, ◖ 3 =  1 + 1·2^1 ◗, ◖ 385 =  1 + 3·2^7 ◗, ◖ 1541 =  1 + 385·2^2 ◗]
 1543 /3/ [◖ 1 ◗, ◖ 3 =  1 + 1·2^1 ◗, ◖ 193 =  1 + 3·2^6 ◗, ◖ 1543 = -1 + 193·2^3 ◗]
 1545 /3/ [◖ 1 ◗, ◖ 3 =  1 + 1·2^1 ◗, ◖ 193 =  1 + 3·2^6 ◗, ◖ 1545 =  1 + 193·2^3 ◗]
 1547 /3/ [◖ 1 ◗, ◖ 3 =  1 + 1·2^1 ◗, ◖ 387 =  3 + 3·2^7 ◗, ◖ 1547 = -1 + 387·2^2 ◗]
 1549 /3/ [◖ 1 ◗, ◖ 3 =  1 + 1·2^1 ◗, ◖ 387 =  3 + 3·2^7 ◗, ◖ 1549 =  1 + 387·2^2 ◗]
 1551 /3/ [◖ 1 ◗, ◖ 3 =  1 + 1·2^1 ◗, ◖ 97 =  1 + 3·2^5 ◗, ◖ 1551 = -1 + 97·2^4 ◗]
 1553 /3/ [◖ 1 ◗, ◖ 3 =  1 + 1·2^1 ◗, ◖ 97 =  1 + 3·2^5 ◗, ◖ 1553 =  1 + 97·2^4 ◗]
 1555 /3/ [◖ 1 ◗, ◖ 3 =  1 + 1·2^1 ◗, ◖ 97 =  1 + 3·2^5 ◗, ◖ 1555 =  3 + 97·2^4 ◗]
 1557 /3/ [◖ 1 ◗, ◖ 3 =  1 + 1·2^1 ◗, ◖ 195 =  3 + 3·2^6 ◗, ◖ 1557 = -3 + 195·2^3 ◗]
 1559 /3/ [◖ 1 ◗, ◖ 3 =  1 + 1·2^1 ◗, ◖ 195 =  3 + 3·2^6 ◗, ◖ 1559 = -1 + 195·2^3 ◗]
 1561 /3/ [◖ 1 ◗, ◖ 3 =  1 + 1·2^1 ◗, ◖ 195 =  3 + 3·2^6 ◗, ◖ 1561 =  1 + 195·2^3 ◗]
 1563 /3/ [◖ 1 ◗, ◖ 3 =  1 + 1·2^1 ◗, ◖ 195 =  3 + 3·2^6 ◗, ◖ 1563 =  3 + 195·2^3 ◗]
 1565 /3/ [◖ 1 ◗, ◖ 3 =  1 + 1·2^1 ◗, ◖ 49 =  1 + 3·2^4 ◗, ◖ 1565 = -3 + 49·2^5 ◗]
 1567 /3/ [◖ 1 ◗, ◖ 3 =  1 + 1·2^1 ◗, ◖ 49 =  1 + 3·2^4 ◗, ◖ 1567 = -1 + 49·2^5 ◗]
 1569 /3/ [◖ 1 ◗, ◖ 3 =  1 + 1·2^1 ◗, ◖ 49 =  1 + 3·2^4 ◗, ◖ 1569 =  1 + 49·2^5 ◗]
 1571 /3/ [◖ 1 ◗, ◖ 3 =  1 + 1·2^1 ◗, ◖ 49 =  1 + 3·2^4 ◗, ◖ 1571 =  3 + 49·2^5 ◗]
 1573 /4/ [◖ 1 ◗, ◖ 3 =  1 + 1·2^1 ◗, ◖ 49 =  1 + 3·2^4 ◗, ◖ 393 =  1 + 49·2^3 ◗, ◖ 1573 =  1 + 393·2^2 ◗]
 1575 /3/ [◖ 1 ◗, ◖ 3 =  1 + 1·2^1 ◗, ◖ 25 =  1 + 3·2^3 ◗, ◖ 1575 = -25 + 25·2^6 ◗]
 1577 /4/ [◖ 1 ◗, ◖ 3 =  1 + 1·2^1 ◗, ◖ 49 =  1 + 3·2^4 ◗, ◖ 197 =  1 + 49·2^2 ◗, ◖ 1577 =  1 + 197·2^3 ◗]
 1579 /4/ [◖ 1 ◗, ◖ 3 =  1 + 1·2^1 ◗, ◖ 99 =  3 + 3·2^5 ◗, ◖ 395 = -1 + 99·2^2 ◗, ◖ 1579 = -1 + 395·2^2 ◗]
 1581 /3/ [◖ 1 ◗, ◖ 3 =  1 + 1·2^1 ◗, ◖ 99 =  3 + 3·2^5 ◗, ◖ 1581 = -3 + 99·2^4 ◗]
 1583 /3/ [◖ 1 ◗, ◖ 3 =  1 + 1·2^1 ◗, ◖ 99 =  3 + 3·2^5 ◗, ◖ 1583 = -1 + 99·2^4 ◗]
 1585 /3/ [◖ 1 ◗, ◖ 3 =  1 + 1·2^1 ◗, ◖ 99 =  3 + 3·2^5 ◗, ◖ 1585 =  1 + 99·2^4 ◗]
 1587 /3/ [◖ 1 ◗, ◖ 3 =  1 + 1·2^1 ◗, ◖ 99 =  3 + 3·2^5 ◗, ◖ 1587 =  3 + 99·2^4 ◗]
 1589 /4/ [◖ 1 ◗, ◖ 3 =  1 + 1·2^1 ◗, ◖ 99 =  3 + 3·2^5 ◗, ◖ 397 =  1 + 99·2^2 ◗, ◖ 1589 =  1 + 397·2^2 ◗]
 1591 /3/ [◖ 1 ◗, ◖ 9 =  1 + 1·2^3 ◗, ◖ 567 = -9 + 9·2^6 ◗, ◖ 1591 =  567 + 1·2^10 ◗]
 1593 /3/ [◖ 1 ◗, ◖ 7 = -1 + 1·2^3 ◗, ◖ 455 =  7 + 7·2^6 ◗, ◖ 1593 = -455 + 1·2^11 ◗]
 1595 /4/ [◖ 1 ◗, ◖ 3 =  1 + 1·2^1 ◗, ◖ 25 =  1 + 3·2^3 ◗, ◖ 399 = -1 + 25·2^4 ◗, ◖ 1595 = -1 + 399·2^2 ◗]
 1597 /3/ [◖ 1 ◗, ◖ 3 =  1 + 1·2^1 ◗, ◖ 25 =  1 + 3·2^3 ◗, ◖ 1597 = -3 + 25·2^6 ◗]
 1599 /3/ [◖ 1 ◗, ◖ 3 =  1 + 1·2^1 ◗, ◖ 25 =  1 + 3·2^3 ◗, ◖ 1599 = -1 + 25·2^6 ◗]
".
Definition v2_25 : string := " 1601 /3/ [◖ 1 ◗, ◖ 3 =  1 + 1·2^1 ◗, ◖ 25 =  1 + 3·2^3 ◗, ◖ 1601 =  1 + 25·2^6 ◗]
 1603 /3/ [◖ 1 ◗, ◖ 3 =  1 + 1·2^1 ◗, ◖ 25 =  1 + 3·2^3 ◗, ◖ 1603 =  3 + 25·2^6 ◗]
 1605 /4/ [◖ 1 ◗, ◖ 3 =  1 + 1·2^1 ◗, ◖ 25 =  1 + 3·2^3 ◗, ◖ 401 =  1 + 25·2^4 ◗, ◖ 1605 =  1 + 401·2^2 ◗]
 1607 /3/ [◖ 1 ◗, ◖ 7 = -1 + 1·2^3 ◗, ◖ 441 = -7 + 7·2^6 ◗, ◖ 1607 = -441 + 1·2^11 ◗]
 1609 /3/ [◖ 1 ◗, ◖ 9 =  1 + 1·2^3 ◗, ◖ 585 =  9 + 9·2^6 ◗, ◖ 1609 =  585 + 1·2^10 ◗]
 1611 /4/ [◖ 1 ◗, ◖ 3 =  1 + 1·2^1 ◗, ◖ 25 =  1 + 3·2^3 ◗, ◖ 403 =  3 + 25·2^4 ◗, ◖ 1611 = -1 + 403·2^2 ◗]
 1613 /4/ [◖ 1 ◗, ◖ 3 =  1 + 1·2^1 ◗, ◖ 25 =  1 + 3·2^3 ◗, ◖ 403 =  3 + 25·2^4 ◗, ◖ 1613 =  1 + 403·2^2 ◗]
 1615 /3/ [◖ 1 ◗, ◖ 3 =  1 + 1·2^1 ◗, ◖ 95 = -1 + 3·2^5 ◗, ◖ 1615 =  95 + 95·2^4 ◗]
 1617 /3/ [◖ 1 ◗, ◖ 17 =  1 + 1·2^4 ◗, ◖ 1105 =  17 + 17·2^6 ◗, ◖ 1617 =  1105 + 1·2^9 ◗]
 1619 /4/ [◖ 1 ◗, ◖ 3 =  1 + 1·2^1 ◗, ◖ 51 =  3 + 3·2^4 ◗, ◖ 405 = -3 + 51·2^3 ◗, ◖ 1619 = -1 + 405·2^2 ◗]
 1621 /4/ [◖ 1 ◗, ◖ 3 =  1 + 1·2^1 ◗, ◖ 51 =  3 + 3·2^4 ◗, ◖ 405 = -3 + 51·2^3 ◗, ◖ 1621 =  1 + 405·2^2 ◗]
 1623 /4/ [◖ 1 ◗, ◖ 3 =  1 + 1·2^1 ◗, ◖ 51 =  3 + 3·2^4 ◗, ◖ 203 = -1 + 51·2^2 ◗, ◖ 1623 = -1 + 203·2^3 ◗]
 1625 /3/ [◖ 1 ◗, ◖ 3 =  1 + 1·2^1 ◗, ◖ 25 =  1 + 3·2^3 ◗, ◖ 1625 =  25 + 25·2^6 ◗]
 1627 /4/ [◖ 1 ◗, ◖ 3 =  1 + 1·2^1 ◗, ◖ 51 =  3 + 3·2^4 ◗, ◖ 407 = -1 + 51·2^3 ◗, ◖ 1627 = -1 + 407·2^2 ◗]
 1629 /3/ [◖ 1 ◗, ◖ 3 =  1 + 1·2^1 ◗, ◖ 51 =  3 + 3·2^4 ◗, ◖ 1629 = -3 + 51·2^5 ◗]
 1631 /3/ [◖ 1 ◗, ◖ 3 =  1 + 1·2^1 ◗, ◖ 51 =  3 + 3·2^4 ◗, ◖ 1631 = -1 + 51·2^5 ◗]
 1633 /3/ [◖ 1 ◗, ◖ 3 =  1 + 1·2^1 ◗, ◖ 51 =  3 + 3·2^4 ◗, ◖ 1633 =  1 + 51·2^5 ◗]
 1635 /3/ [◖ 1 ◗, ◖ 3 =  1 + 1·2^1 ◗, ◖ 51 =  3 + 3·2^4 ◗, ◖ 1635 =  3 + 51·2^5 ◗]
 1637 /4/ [◖ 1 ◗, ◖ 3 =  1 + 1·2^1 ◗, ◖ 51 =  3 + 3·2^4 ◗, ◖ 409 =  1 + 51·2^3 ◗, ◖ 1637 =  1 + 409·2^2 ◗]
 1639 /4/ [◖ 1 ◗, ◖ 3 =  1 + 1·2^1 ◗, ◖ 51 =  3 + 3·2^4 ◗, ◖ 205 =  1 + 51·2^2 ◗, ◖ 1639 = -1 + 205·2^3 ◗]
 1641 /4/ [◖ 1 ◗, ◖ 3 =  1 + 1·2^1 ◗, ◖ 51 =  3 + 3·2^4 ◗, ◖ 205 =  1 + 51·2^2 ◗, ◖ 1641 =  1 + 205·2^3 ◗]
 1643 /4/ [◖ 1 ◗, ◖ 3 =  1 + 1·2^1 ◗, ◖ 51 =  3 + 3·2^4 ◗, ◖ 411 =  3 + 51·2^3 ◗, ◖ 1643 = -1 + 411·2^2 ◗]
 1645 /4/ [◖ 1 ◗, ◖ 3 =  1 + 1·2^1 ◗, ◖ 51 =  3 + 3·2^4 ◗, ◖ 411 =  3 + 51·2^3 ◗, ◖ 1645 =  1 + 411·2^2 ◗]
 1647 /3/ [◖ 1 ◗, ◖ 17 =  1 + 1·2^4 ◗, ◖ 2159 = -17 + 17·2^7 ◗, ◖ 1647 =  2159 - 1·2^9 ◗]
 1649 /3/ [◖ 1 ◗, ◖ 3 =  1 + 1·2^1 ◗, ◖ 97 =  1 + 3·2^5 ◗, ◖ 1649 =  97 + 97·2^4 ◗]
 1651 /3/ [◖ 1 ◗, ◖ 3 =  1 + 1·2^1 ◗, ◖ 13 =  1 + 3·2^2 ◗, ◖ 1651 = -13 + 13·2^7 ◗]
 1653 /4/ [◖ 1 ◗, ◖ 3 =  1 + 1·2^1 ◗, ◖ 13 =  1 + 3·2^2 ◗, ◖ 413 = -3 + 13·2^5 ◗, ◖ 1653 =  1 + 413·2^2 ◗]
 1655 /3/ [◖ 1 ◗, ◖ 9 =  1 + 1·2^3 ◗, ◖ 1143 = -9 + 9·2^7 ◗, ◖ 1655 =  1143 + 1·2^9 ◗]
 1657 /3/ [◖ 1 ◗, ◖ 7 = -1 + 1·2^3 ◗, ◖ 1785 = -7 + 7·2^8 ◗, ◖ 1657 =  1785 - 1·2^7 ◗]
 1659 /3/ [◖ 1 ◗, ◖ 5 =  1 + 1·2^2 ◗, ◖ 635 = -5 + 5·2^7 ◗, ◖ 1659 =  635 + 1·2^10 ◗]
 1661 /3/ [◖ 1 ◗, ◖ 3 =  1 + 1·2^1 ◗, ◖ 13 =  1 + 3·2^2 ◗, ◖ 1661 = -3 + 13·2^7 ◗]
 1663 /3/ [◖ 1 ◗, ◖ 3 =  1 + 1·2^1 ◗, ◖ 13 =  1 + 3·2^2 ◗, ◖ 1663 = -1 + 13·2^7 ◗]
".
Definition v2_26 : string := " 1665 /3/ [◖ 1 ◗, ◖ 3 =  1 + 1·2^1 ◗, ◖ 13 =  1 + 3·2^2 ◗, ◖ 1665 =  1 + 13·2^7 ◗]
 1667 /3/ [◖ 1 ◗, ◖ 3 =  1 + 1·2^1 ◗, ◖ 13 =  1 + 3·2^2 ◗, ◖ 1667 =  3 + 13·2^7 ◗]
 1669 /3/ [◖ 1 ◗, ◖ 5 =  1 + 1·2^2 ◗, ◖ 645 =  5 + 5·2^7 ◗, ◖ 1669 =  645 + 1·2^10 ◗]
 1671 /3/ [◖ 1 ◗, ◖ 7 = -1 + 1·2^3 ◗, ◖ 1799 =  7 + 7·2^8 ◗, ◖ 1671 =  1799 - 1·2^7 ◗]
 1673 /3/ [◖ 1 ◗, ◖ 7 = -1 + 1·2^3 ◗, ◖ 105 = -7 + 7·2^4 ◗, ◖ 1673 = -7 + 105·2^4 ◗]
 1675 /4/ [◖ 1 ◗, ◖ 7 = -1 + 1·2^3 ◗, ◖ 105 = -7 + 7·2^4 ◗, ◖ 419 = -1 + 105·2^2 ◗, ◖ 1675 = -1 + 419·2^2 ◗]
 1677 /3/ [◖ 1 ◗, ◖ 3 =  1 + 1·2^1 ◗, ◖ 13 =  1 + 3·2^2 ◗, ◖ 1677 =  13 + 13·2^7 ◗]
 1679 /3/ [◖ 1 ◗, ◖ 7 = -1 + 1·2^3 ◗, ◖ 105 = -7 + 7·2^4 ◗, ◖ 1679 = -1 + 105·2^4 ◗]
 1681 /3/ [◖ 1 ◗, ◖ 7 = -1 + 1·2^3 ◗, ◖ 105 = -7 + 7·2^4 ◗, ◖ 1681 =  1 + 105·2^4 ◗]
 1683 /3/ [◖ 1 ◗, ◖ 17 =  1 + 1·2^4 ◗, ◖ 561 =  17 + 17·2^5 ◗, ◖ 1683 = -561 + 561·2^2 ◗]
 1685 /4/ [◖ 1 ◗, ◖ 7 = -1 + 1·2^3 ◗, ◖ 105 = -7 + 7·2^4 ◗, ◖ 421 =  1 + 105·2^2 ◗, ◖ 1685 =  1 + 421·2^2 ◗]
 1687 /3/ [◖ 1 ◗, ◖ 7 = -1 + 1·2^3 ◗, ◖ 105 = -7 + 7·2^4 ◗, ◖ 1687 =  7 + 105·2^4 ◗]
 1689 /4/ [◖ 1 ◗, ◖ 7 = -1 + 1·2^3 ◗, ◖ 105 = -7 + 7·2^4 ◗, ◖ 211 =  1 + 105·2^1 ◗, ◖ 1689 =  1 + 211·2^3 ◗]
 1691 /4/ [◖ 1 ◗, ◖ 3 =  1 + 1·2^1 ◗, ◖ 13 =  1 + 3·2^2 ◗, ◖ 845 =  13 + 13·2^6 ◗, ◖ 1691 =  1 + 845·2^1 ◗]
 1693 /4/ [◖ 1 ◗, ◖ 3 =  1 + 1·2^1 ◗, ◖ 47 = -1 + 3·2^4 ◗, ◖ 423 =  47 + 47·2^3 ◗, ◖ 1693 =  1 + 423·2^2 ◗]
 1695 /4/ [◖ 1 ◗, ◖ 3 =  1 + 1·2^1 ◗, ◖ 13 =  1 + 3·2^2 ◗, ◖ 53 =  1 + 13·2^2 ◗, ◖ 1695 = -1 + 53·2^5 ◗]
 1697 /3/ [◖ 1 ◗, ◖ 31 = -1 + 1·2^5 ◗, ◖ 1953 = -31 + 31·2^6 ◗, ◖ 1697 =  1953 - 1·2^8 ◗]
 1699 /4/ [◖ 1 ◗, ◖ 7 = -1 + 1·2^3 ◗, ◖ 27 = -1 + 7·2^2 ◗, ◖ 425 = -7 + 27·2^4 ◗, ◖ 1699 = -1 + 425·2^2 ◗]
 1701 /3/ [◖ 1 ◗, ◖ 7 = -1 + 1·2^3 ◗, ◖ 27 = -1 + 7·2^2 ◗, ◖ 1701 = -27 + 27·2^6 ◗]
 1703 /4/ [◖ 1 ◗, ◖ 7 = -1 + 1·2^3 ◗, ◖ 55 = -1 + 7·2^3 ◗, ◖ 213 = -7 + 55·2^2 ◗, ◖ 1703 = -1 + 213·2^3 ◗]
 1705 /3/ [◖ 1 ◗, ◖ 7 = -1 + 1·2^3 ◗, ◖ 55 = -1 + 7·2^3 ◗, ◖ 1705 = -55 + 55·2^5 ◗]
 1707 /4/ [◖ 1 ◗, ◖ 7 = -1 + 1·2^3 ◗, ◖ 105 = -7 + 7·2^4 ◗, ◖ 427 =  7 + 105·2^2 ◗, ◖ 1707 = -1 + 427·2^2 ◗]
 1709 /4/ [◖ 1 ◗, ◖ 7 = -1 + 1·2^3 ◗, ◖ 105 = -7 + 7·2^4 ◗, ◖ 427 =  7 + 105·2^2 ◗, ◖ 1709 =  1 + 427·2^2 ◗]
 1711 /4/ [◖ 1 ◗, ◖ 7 = -1 + 1·2^3 ◗, ◖ 27 = -1 + 7·2^2 ◗, ◖ 107 = -1 + 27·2^2 ◗, ◖ 1711 = -1 + 107·2^4 ◗]
 1713 /4/ [◖ 1 ◗, ◖ 7 = -1 + 1·2^3 ◗, ◖ 27 = -1 + 7·2^2 ◗, ◖ 107 = -1 + 27·2^2 ◗, ◖ 1713 =  1 + 107·2^4 ◗]
 1715 /4/ [◖ 1 ◗, ◖ 7 = -1 + 1·2^3 ◗, ◖ 27 = -1 + 7·2^2 ◗, ◖ 857 = -7 + 27·2^5 ◗, ◖ 1715 =  1 + 857·2^1 ◗]
 1717 /4/ [◖ 1 ◗, ◖ 3 =  1 + 1·2^1 ◗, ◖ 13 =  1 + 3·2^2 ◗, ◖ 429 =  13 + 13·2^5 ◗, ◖ 1717 =  1 + 429·2^2 ◗]
 1719 /3/ [◖ 1 ◗, ◖ 3 =  1 + 1·2^1 ◗, ◖ 191 = -1 + 3·2^6 ◗, ◖ 1719 =  191 + 191·2^3 ◗]
 1721 /3/ [◖ 1 ◗, ◖ 7 = -1 + 1·2^3 ◗, ◖ 27 = -1 + 7·2^2 ◗, ◖ 1721 = -7 + 27·2^6 ◗]
 1723 /3/ [◖ 1 ◗, ◖ 5 =  1 + 1·2^2 ◗, ◖ 325 =  5 + 5·2^6 ◗, ◖ 1723 = -325 + 1·2^11 ◗]
 1725 /3/ [◖ 1 ◗, ◖ 9 =  1 + 1·2^3 ◗, ◖ 575 = -1 + 9·2^6 ◗, ◖ 1725 =  575 + 575·2^1 ◗]
 1727 /3/ [◖ 1 ◗, ◖ 7 = -1 + 1·2^3 ◗, ◖ 27 = -1 + 7·2^2 ◗, ◖ 1727 = -1 + 27·2^6 ◗]
".
Definition v2_27 : string := " 1729 /3/ [◖ 1 ◗, ◖ 7 = -1 + 1·2^3 ◗, ◖ 27 = -1 + 7·2^2 ◗, ◖ 1729 =  1 + 27·2^6 ◗]
 1731 /3/ [◖ 1 ◗, ◖ 9 =  1 + 1·2^3 ◗, ◖ 577 =  1 + 9·2^6 ◗, ◖ 1731 =  577 + 577·2^1 ◗]
 1733 /3/ [◖ 1 ◗, ◖ 5 =  1 + 1·2^2 ◗, ◖ 315 = -5 + 5·2^6 ◗, ◖ 1733 = -315 + 1·2^11 ◗]
 1735 /3/ [◖ 1 ◗, ◖ 7 = -1 + 1·2^3 ◗, ◖ 217 = -7 + 7·2^5 ◗, ◖ 1735 = -1 + 217·2^3 ◗]
 1737 /3/ [◖ 1 ◗, ◖ 7 = -1 + 1·2^3 ◗, ◖ 217 = -7 + 7·2^5 ◗, ◖ 1737 =  1 + 217·2^3 ◗]
 1739 /4/ [◖ 1 ◗, ◖ 7 = -1 + 1·2^3 ◗, ◖ 217 = -7 + 7·2^5 ◗, ◖ 435 =  1 + 217·2^1 ◗, ◖ 1739 = -1 + 435·2^2 ◗]
 1741 /4/ [◖ 1 ◗, ◖ 7 = -1 + 1·2^3 ◗, ◖ 217 = -7 + 7·2^5 ◗, ◖ 435 =  1 + 217·2^1 ◗, ◖ 1741 =  1 + 435·2^2 ◗]
 1743 /4/ [◖ 1 ◗, ◖ 7 = -1 + 1·2^3 ◗, ◖ 27 = -1 + 7·2^2 ◗, ◖ 109 =  1 + 27·2^2 ◗, ◖ 1743 = -1 + 109·2^4 ◗]
 1745 /4/ [◖ 1 ◗, ◖ 7 = -1 + 1·2^3 ◗, ◖ 27 = -1 + 7·2^2 ◗, ◖ 109 =  1 + 27·2^2 ◗, ◖ 1745 =  1 + 109·2^4 ◗]
 1747 /4/ [◖ 1 ◗, ◖ 7 = -1 + 1·2^3 ◗, ◖ 55 = -1 + 7·2^3 ◗, ◖ 873 = -7 + 55·2^4 ◗, ◖ 1747 =  1 + 873·2^1 ◗]
 1749 /4/ [◖ 1 ◗, ◖ 7 = -1 + 1·2^3 ◗, ◖ 111 = -1 + 7·2^4 ◗, ◖ 437 = -7 + 111·2^2 ◗, ◖ 1749 =  1 + 437·2^2 ◗]
 1751 /3/ [◖ 1 ◗, ◖ 9 =  1 + 1·2^3 ◗, ◖ 297 =  9 + 9·2^5 ◗, ◖ 1751 = -297 + 1·2^11 ◗]
 1753 /3/ [◖ 1 ◗, ◖ 7 = -1 + 1·2^3 ◗, ◖ 55 = -1 + 7·2^3 ◗, ◖ 1753 = -7 + 55·2^5 ◗]
 1755 /3/ [◖ 1 ◗, ◖ 7 = -1 + 1·2^3 ◗, ◖ 27 = -1 + 7·2^2 ◗, ◖ 1755 =  27 + 27·2^6 ◗]
 1757 /3/ [◖ 1 ◗, ◖ 7 = -1 + 1·2^3 ◗, ◖ 441 = -7 + 7·2^6 ◗, ◖ 1757 = -7 + 441·2^2 ◗]
 1759 /3/ [◖ 1 ◗, ◖ 7 = -1 + 1·2^3 ◗, ◖ 55 = -1 + 7·2^3 ◗, ◖ 1759 = -1 + 55·2^5 ◗]
 1761 /3/ [◖ 1 ◗, ◖ 7 = -1 + 1·2^3 ◗, ◖ 55 = -1 + 7·2^3 ◗, ◖ 1761 =  1 + 55·2^5 ◗]
 1763 /3/ [◖ 1 ◗, ◖ 7 = -1 + 1·2^3 ◗, ◖ 441 = -7 + 7·2^6 ◗, ◖ 1763 = -1 + 441·2^2 ◗]
 1765 /3/ [◖ 1 ◗, ◖ 7 = -1 + 1·2^3 ◗, ◖ 441 = -7 + 7·2^6 ◗, ◖ 1765 =  1 + 441·2^2 ◗]
 1767 /3/ [◖ 1 ◗, ◖ 7 = -1 + 1·2^3 ◗, ◖ 55 = -1 + 7·2^3 ◗, ◖ 1767 =  7 + 55·2^5 ◗]
 1769 /3/ [◖ 1 ◗, ◖ 7 = -1 + 1·2^3 ◗, ◖ 111 = -1 + 7·2^4 ◗, ◖ 1769 = -7 + 111·2^4 ◗]
 1771 /3/ [◖ 1 ◗, ◖ 7 = -1 + 1·2^3 ◗, ◖ 441 = -7 + 7·2^6 ◗, ◖ 1771 =  7 + 441·2^2 ◗]
 1773 /4/ [◖ 1 ◗, ◖ 7 = -1 + 1·2^3 ◗, ◖ 111 = -1 + 7·2^4 ◗, ◖ 443 = -1 + 111·2^2 ◗, ◖ 1773 =  1 + 443·2^2 ◗]
 1775 /3/ [◖ 1 ◗, ◖ 7 = -1 + 1·2^3 ◗, ◖ 111 = -1 + 7·2^4 ◗, ◖ 1775 = -1 + 111·2^4 ◗]
 1777 /3/ [◖ 1 ◗, ◖ 7 = -1 + 1·2^3 ◗, ◖ 111 = -1 + 7·2^4 ◗, ◖ 1777 =  1 + 111·2^4 ◗]
 1779 /3/ [◖ 1 ◗, ◖ 7 = -1 + 1·2^3 ◗, ◖ 889 = -7 + 7·2^7 ◗, ◖ 1779 =  1 + 889·2^1 ◗]
 1781 /3/ [◖ 1 ◗, ◖ 7 = -1 + 1·2^3 ◗, ◖ 447 = -1 + 7·2^6 ◗, ◖ 1781 = -7 + 447·2^2 ◗]
 1783 /3/ [◖ 1 ◗, ◖ 7 = -1 + 1·2^3 ◗, ◖ 223 = -1 + 7·2^5 ◗, ◖ 1783 = -1 + 223·2^3 ◗]
 1785 /2/ [◖ 1 ◗, ◖ 7 = -1 + 1·2^3 ◗, ◖ 1785 = -7 + 7·2^8 ◗]
 1787 /3/ [◖ 1 ◗, ◖ 7 = -1 + 1·2^3 ◗, ◖ 447 = -1 + 7·2^6 ◗, ◖ 1787 = -1 + 447·2^2 ◗]
 1789 /3/ [◖ 1 ◗, ◖ 7 = -1 + 1·2^3 ◗, ◖ 447 = -1 + 7·2^6 ◗, ◖ 1789 =  1 + 447·2^2 ◗]
 1791 /2/ [◖ 1 ◗, ◖ 7 = -1 + 1·2^3 ◗, ◖ 1791 = -1 + 7·2^8 ◗]
".
Definition v2_28 : string := " 1793 /2/ [◖ 1 ◗, ◖ 7 = -1 + 1·2^3 ◗, ◖ 1793 =  1 + 7·2^8 ◗]
 1795 /3/ [◖ 1 ◗, ◖ 7 = -1 + 1·2^3 ◗, ◖ 449 =  1 + 7·2^6 ◗, ◖ 1795 = -1 + 449·2^2 ◗]
 1797 /3/ [◖ 1 ◗, ◖ 7 = -1 + 1·2^3 ◗, ◖ 449 =  1 + 7·2^6 ◗, ◖ 1797 =  1 + 449·2^2 ◗]
 1799 /2/ [◖ 1 ◗, ◖ 7 = -1 + 1·2^3 ◗, ◖ 1799 =  7 + 7·2^8 ◗]
 1801 /3/ [◖ 1 ◗, ◖ 7 = -1 + 1·2^3 ◗, ◖ 225 =  1 + 7·2^5 ◗, ◖ 1801 =  1 + 225·2^3 ◗]
 1803 /3/ [◖ 1 ◗, ◖ 7 = -1 + 1·2^3 ◗, ◖ 449 =  1 + 7·2^6 ◗, ◖ 1803 =  7 + 449·2^2 ◗]
 1805 /3/ [◖ 1 ◗, ◖ 7 = -1 + 1·2^3 ◗, ◖ 903 =  7 + 7·2^7 ◗, ◖ 1805 = -1 + 903·2^1 ◗]
 1807 /3/ [◖ 1 ◗, ◖ 7 = -1 + 1·2^3 ◗, ◖ 113 =  1 + 7·2^4 ◗, ◖ 1807 = -1 + 113·2^4 ◗]
 1809 /3/ [◖ 1 ◗, ◖ 7 = -1 + 1·2^3 ◗, ◖ 113 =  1 + 7·2^4 ◗, ◖ 1809 =  1 + 113·2^4 ◗]
 1811 /4/ [◖ 1 ◗, ◖ 7 = -1 + 1·2^3 ◗, ◖ 113 =  1 + 7·2^4 ◗, ◖ 453 =  1 + 113·2^2 ◗, ◖ 1811 = -1 + 453·2^2 ◗]
 1813 /3/ [◖ 1 ◗, ◖ 7 = -1 + 1·2^3 ◗, ◖ 455 =  7 + 7·2^6 ◗, ◖ 1813 = -7 + 455·2^2 ◗]
 1815 /3/ [◖ 1 ◗, ◖ 7 = -1 + 1·2^3 ◗, ◖ 113 =  1 + 7·2^4 ◗, ◖ 1815 =  7 + 113·2^4 ◗]
 1817 /3/ [◖ 1 ◗, ◖ 7 = -1 + 1·2^3 ◗, ◖ 57 =  1 + 7·2^3 ◗, ◖ 1817 = -7 + 57·2^5 ◗]
 1819 /3/ [◖ 1 ◗, ◖ 7 = -1 + 1·2^3 ◗, ◖ 455 =  7 + 7·2^6 ◗, ◖ 1819 = -1 + 455·2^2 ◗]
 1821 /3/ [◖ 1 ◗, ◖ 7 = -1 + 1·2^3 ◗, ◖ 455 =  7 + 7·2^6 ◗, ◖ 1821 =  1 + 455·2^2 ◗]
 1823 /3/ [◖ 1 ◗, ◖ 7 = -1 + 1·2^3 ◗, ◖ 57 =  1 + 7·2^3 ◗, ◖ 1823 = -1 + 57·2^5 ◗]
 1825 /3/ [◖ 1 ◗, ◖ 7 = -1 + 1·2^3 ◗, ◖ 57 =  1 + 7·2^3 ◗, ◖ 1825 =  1 + 57·2^5 ◗]
 1827 /3/ [◖ 1 ◗, ◖ 7 = -1 + 1·2^3 ◗, ◖ 455 =  7 + 7·2^6 ◗, ◖ 1827 =  7 + 455·2^2 ◗]
 1829 /3/ [◖ 1 ◗, ◖ 15 = -1 + 1·2^4 ◗, ◖ 59 = -1 + 15·2^2 ◗, ◖ 1829 = -59 + 59·2^5 ◗]
 1831 /3/ [◖ 1 ◗, ◖ 7 = -1 + 1·2^3 ◗, ◖ 57 =  1 + 7·2^3 ◗, ◖ 1831 =  7 + 57·2^5 ◗]
 1833 /4/ [◖ 1 ◗, ◖ 7 = -1 + 1·2^3 ◗, ◖ 57 =  1 + 7·2^3 ◗, ◖ 229 =  1 + 57·2^2 ◗, ◖ 1833 =  1 + 229·2^3 ◗]
 1835 /4/ [◖ 1 ◗, ◖ 7 = -1 + 1·2^3 ◗, ◖ 113 =  1 + 7·2^4 ◗, ◖ 459 =  7 + 113·2^2 ◗, ◖ 1835 = -1 + 459·2^2 ◗]
 1837 /4/ [◖ 1 ◗, ◖ 7 = -1 + 1·2^3 ◗, ◖ 57 =  1 + 7·2^3 ◗, ◖ 919 =  7 + 57·2^4 ◗, ◖ 1837 = -1 + 919·2^1 ◗]
 1839 /4/ [◖ 1 ◗, ◖ 7 = -1 + 1·2^3 ◗, ◖ 29 =  1 + 7·2^2 ◗, ◖ 115 = -1 + 29·2^2 ◗, ◖ 1839 = -1 + 115·2^4 ◗]
 1841 /3/ [◖ 1 ◗, ◖ 15 = -1 + 1·2^4 ◗, ◖ 1905 = -15 + 15·2^7 ◗, ◖ 1841 =  1905 - 1·2^6 ◗]
 1843 /4/ [◖ 1 ◗, ◖ 7 = -1 + 1·2^3 ◗, ◖ 231 =  7 + 7·2^5 ◗, ◖ 461 = -1 + 231·2^1 ◗, ◖ 1843 = -1 + 461·2^2 ◗]
 1845 /3/ [◖ 1 ◗, ◖ 15 = -1 + 1·2^4 ◗, ◖ 465 = -15 + 15·2^5 ◗, ◖ 1845 = -15 + 465·2^2 ◗]
 1847 /3/ [◖ 1 ◗, ◖ 7 = -1 + 1·2^3 ◗, ◖ 231 =  7 + 7·2^5 ◗, ◖ 1847 = -1 + 231·2^3 ◗]
 1849 /3/ [◖ 1 ◗, ◖ 7 = -1 + 1·2^3 ◗, ◖ 231 =  7 + 7·2^5 ◗, ◖ 1849 =  1 + 231·2^3 ◗]
 1851 /4/ [◖ 1 ◗, ◖ 7 = -1 + 1·2^3 ◗, ◖ 29 =  1 + 7·2^2 ◗, ◖ 463 = -1 + 29·2^4 ◗, ◖ 1851 = -1 + 463·2^2 ◗]
 1853 /3/ [◖ 1 ◗, ◖ 3 =  1 + 1·2^1 ◗, ◖ 195 =  3 + 3·2^6 ◗, ◖ 1853 = -195 + 1·2^11 ◗]
 1855 /3/ [◖ 1 ◗, ◖ 7 = -1 + 1·2^3 ◗, ◖ 29 =  1 + 7·2^2 ◗, ◖ 1855 = -1 + 29·2^6 ◗]
".
Definition v2_29 : string := " 1857 /3/ [◖ 1 ◗, ◖ 7 = -1 + 1·2^3 ◗, ◖ 29 =  1 + 7·2^2 ◗, ◖ 1857 =  1 + 29·2^6 ◗]
 1859 /3/ [◖ 1 ◗, ◖ 15 = -1 + 1·2^4 ◗, ◖ 465 = -15 + 15·2^5 ◗, ◖ 1859 = -1 + 465·2^2 ◗]
 1861 /3/ [◖ 1 ◗, ◖ 15 = -1 + 1·2^4 ◗, ◖ 465 = -15 + 15·2^5 ◗, ◖ 1861 =  1 + 465·2^2 ◗]
 1863 /3/ [◖ 1 ◗, ◖ 7 = -1 + 1·2^3 ◗, ◖ 29 =  1 + 7·2^2 ◗, ◖ 1863 =  7 + 29·2^6 ◗]
 1865 /4/ [◖ 1 ◗, ◖ 7 = -1 + 1·2^3 ◗, ◖ 29 =  1 + 7·2^2 ◗, ◖ 233 =  1 + 29·2^3 ◗, ◖ 1865 =  1 + 233·2^3 ◗]
 1867 /4/ [◖ 1 ◗, ◖ 15 = -1 + 1·2^4 ◗, ◖ 241 =  1 + 15·2^4 ◗, ◖ 467 = -15 + 241·2^1 ◗, ◖ 1867 = -1 + 467·2^2 ◗]
 1869 /4/ [◖ 1 ◗, ◖ 7 = -1 + 1·2^3 ◗, ◖ 29 =  1 + 7·2^2 ◗, ◖ 935 =  7 + 29·2^5 ◗, ◖ 1869 = -1 + 935·2^1 ◗]
 1871 /3/ [◖ 1 ◗, ◖ 15 = -1 + 1·2^4 ◗, ◖ 1935 =  15 + 15·2^7 ◗, ◖ 1871 =  1935 - 1·2^6 ◗]
 1873 /3/ [◖ 1 ◗, ◖ 15 = -1 + 1·2^4 ◗, ◖ 59 = -1 + 15·2^2 ◗, ◖ 1873 = -15 + 59·2^5 ◗]
 1875 /3/ [◖ 1 ◗, ◖ 15 = -1 + 1·2^4 ◗, ◖ 465 = -15 + 15·2^5 ◗, ◖ 1875 =  15 + 465·2^2 ◗]
 1877 /4/ [◖ 1 ◗, ◖ 7 = -1 + 1·2^3 ◗, ◖ 231 =  7 + 7·2^5 ◗, ◖ 469 =  7 + 231·2^1 ◗, ◖ 1877 =  1 + 469·2^2 ◗]
 1879 /4/ [◖ 1 ◗, ◖ 15 = -1 + 1·2^4 ◗, ◖ 59 = -1 + 15·2^2 ◗, ◖ 235 = -1 + 59·2^2 ◗, ◖ 1879 = -1 + 235·2^3 ◗]
 1881 /3/ [◖ 1 ◗, ◖ 7 = -1 + 1·2^3 ◗, ◖ 57 =  1 + 7·2^3 ◗, ◖ 1881 =  57 + 57·2^5 ◗]
 1883 /3/ [◖ 1 ◗, ◖ 5 =  1 + 1·2^2 ◗, ◖ 165 =  5 + 5·2^5 ◗, ◖ 1883 = -165 + 1·2^11 ◗]
 1885 /3/ [◖ 1 ◗, ◖ 7 = -1 + 1·2^3 ◗, ◖ 29 =  1 + 7·2^2 ◗, ◖ 1885 =  29 + 29·2^6 ◗]
 1887 /3/ [◖ 1 ◗, ◖ 15 = -1 + 1·2^4 ◗, ◖ 59 = -1 + 15·2^2 ◗, ◖ 1887 = -1 + 59·2^5 ◗]
 1889 /3/ [◖ 1 ◗, ◖ 15 = -1 + 1·2^4 ◗, ◖ 59 = -1 + 15·2^2 ◗, ◖ 1889 =  1 + 59·2^5 ◗]
 1891 /3/ [◖ 1 ◗, ◖ 15 = -1 + 1·2^4 ◗, ◖ 945 = -15 + 15·2^6 ◗, ◖ 1891 =  1 + 945·2^1 ◗]
 1893 /3/ [◖ 1 ◗, ◖ 5 =  1 + 1·2^2 ◗, ◖ 155 = -5 + 5·2^5 ◗, ◖ 1893 = -155 + 1·2^11 ◗]
 1895 /3/ [◖ 1 ◗, ◖ 9 =  1 + 1·2^3 ◗, ◖ 153 =  9 + 9·2^4 ◗, ◖ 1895 = -153 + 1·2^11 ◗]
 1897 /3/ [◖ 1 ◗, ◖ 15 = -1 + 1·2^4 ◗, ◖ 239 = -1 + 15·2^4 ◗, ◖ 1897 = -15 + 239·2^3 ◗]
 1899 /4/ [◖ 1 ◗, ◖ 15 = -1 + 1·2^4 ◗, ◖ 119 = -1 + 15·2^3 ◗, ◖ 475 = -1 + 119·2^2 ◗, ◖ 1899 = -1 + 475·2^2 ◗]
 1901 /3/ [◖ 1 ◗, ◖ 15 = -1 + 1·2^4 ◗, ◖ 479 = -1 + 15·2^5 ◗, ◖ 1901 = -15 + 479·2^2 ◗]
 1903 /3/ [◖ 1 ◗, ◖ 15 = -1 + 1·2^4 ◗, ◖ 119 = -1 + 15·2^3 ◗, ◖ 1903 = -1 + 119·2^4 ◗]
 1905 /2/ [◖ 1 ◗, ◖ 15 = -1 + 1·2^4 ◗, ◖ 1905 = -15 + 15·2^7 ◗]
 1907 /3/ [◖ 1 ◗, ◖ 15 = -1 + 1·2^4 ◗, ◖ 961 =  1 + 15·2^6 ◗, ◖ 1907 = -15 + 961·2^1 ◗]
 1909 /3/ [◖ 1 ◗, ◖ 15 = -1 + 1·2^4 ◗, ◖ 481 =  1 + 15·2^5 ◗, ◖ 1909 = -15 + 481·2^2 ◗]
 1911 /3/ [◖ 1 ◗, ◖ 15 = -1 + 1·2^4 ◗, ◖ 239 = -1 + 15·2^4 ◗, ◖ 1911 = -1 + 239·2^3 ◗]
 1913 /3/ [◖ 1 ◗, ◖ 15 = -1 + 1·2^4 ◗, ◖ 239 = -1 + 15·2^4 ◗, ◖ 1913 =  1 + 239·2^3 ◗]
 1915 /3/ [◖ 1 ◗, ◖ 15 = -1 + 1·2^4 ◗, ◖ 479 = -1 + 15·2^5 ◗, ◖ 1915 = -1 + 479·2^2 ◗]
 1917 /3/ [◖ 1 ◗, ◖ 15 = -1 + 1·2^4 ◗, ◖ 479 = -1 + 15·2^5 ◗, ◖ 1917 =  1 + 479·2^2 ◗]
 1919 /2/ [◖ 1 ◗, ◖ 15 = -1 + 1·2^4 ◗, ◖ 1919 = -1 + 15·2^7 ◗]
".
Definition v2_30 : string := " 1921 /2/ [◖ 1 ◗, ◖ 15 = -1 + 1·2^4 ◗, ◖ 1921 =  1 + 15·2^7 ◗]
 1923 /3/ [◖ 1 ◗, ◖ 15 = -1 + 1·2^4 ◗, ◖ 481 =  1 + 15·2^5 ◗, ◖ 1923 = -1 + 481·2^2 ◗]
 1925 /3/ [◖ 1 ◗, ◖ 15 = -1 + 1·2^4 ◗, ◖ 481 =  1 + 15·2^5 ◗, ◖ 1925 =  1 + 481·2^2 ◗]
 1927 /3/ [◖ 1 ◗, ◖ 15 = -1 + 1·2^4 ◗, ◖ 241 =  1 + 15·2^4 ◗, ◖ 1927 = -1 + 241·2^3 ◗]
 1929 /3/ [◖ 1 ◗, ◖ 15 = -1 + 1·2^4 ◗, ◖ 241 =  1 + 15·2^4 ◗, ◖ 1929 =  1 + 241·2^3 ◗]
 1931 /3/ [◖ 1 ◗, ◖ 15 = -1 + 1·2^4 ◗, ◖ 479 = -1 + 15·2^5 ◗, ◖ 1931 =  15 + 479·2^2 ◗]
 1933 /3/ [◖ 1 ◗, ◖ 15 = -1 + 1·2^4 ◗, ◖ 959 = -1 + 15·2^6 ◗, ◖ 1933 =  15 + 959·2^1 ◗]
 1935 /2/ [◖ 1 ◗, ◖ 15 = -1 + 1·2^4 ◗, ◖ 1935 =  15 + 15·2^7 ◗]
 1937 /3/ [◖ 1 ◗, ◖ 15 = -1 + 1·2^4 ◗, ◖ 121 =  1 + 15·2^3 ◗, ◖ 1937 =  1 + 121·2^4 ◗]
 1939 /3/ [◖ 1 ◗, ◖ 15 = -1 + 1·2^4 ◗, ◖ 481 =  1 + 15·2^5 ◗, ◖ 1939 =  15 + 481·2^2 ◗]
 1941 /4/ [◖ 1 ◗, ◖ 15 = -1 + 1·2^4 ◗, ◖ 121 =  1 + 15·2^3 ◗, ◖ 485 =  1 + 121·2^2 ◗, ◖ 1941 =  1 + 485·2^2 ◗]
 1943 /3/ [◖ 1 ◗, ◖ 15 = -1 + 1·2^4 ◗, ◖ 241 =  1 + 15·2^4 ◗, ◖ 1943 =  15 + 241·2^3 ◗]
 1945 /3/ [◖ 1 ◗, ◖ 31 = -1 + 1·2^5 ◗, ◖ 247 = -1 + 31·2^3 ◗, ◖ 1945 = -31 + 247·2^3 ◗]
 1947 /3/ [◖ 1 ◗, ◖ 15 = -1 + 1·2^4 ◗, ◖ 59 = -1 + 15·2^2 ◗, ◖ 1947 =  59 + 59·2^5 ◗]
 1949 /3/ [◖ 1 ◗, ◖ 15 = -1 + 1·2^4 ◗, ◖ 975 =  15 + 15·2^6 ◗, ◖ 1949 = -1 + 975·2^1 ◗]
 1951 /3/ [◖ 1 ◗, ◖ 15 = -1 + 1·2^4 ◗, ◖ 61 =  1 + 15·2^2 ◗, ◖ 1951 = -1 + 61·2^5 ◗]
 1953 /2/ [◖ 1 ◗, ◖ 31 = -1 + 1·2^5 ◗, ◖ 1953 = -31 + 31·2^6 ◗]
 1955 /3/ [◖ 1 ◗, ◖ 31 = -1 + 1·2^5 ◗, ◖ 993 =  1 + 31·2^5 ◗, ◖ 1955 = -31 + 993·2^1 ◗]
 1957 /3/ [◖ 1 ◗, ◖ 31 = -1 + 1·2^5 ◗, ◖ 497 =  1 + 31·2^4 ◗, ◖ 1957 = -31 + 497·2^2 ◗]
 1959 /4/ [◖ 1 ◗, ◖ 15 = -1 + 1·2^4 ◗, ◖ 61 =  1 + 15·2^2 ◗, ◖ 245 =  1 + 61·2^2 ◗, ◖ 1959 = -1 + 245·2^3 ◗]
 1961 /3/ [◖ 1 ◗, ◖ 31 = -1 + 1·2^5 ◗, ◖ 249 =  1 + 31·2^3 ◗, ◖ 1961 = -31 + 249·2^3 ◗]
 1963 /3/ [◖ 1 ◗, ◖ 5 =  1 + 1·2^2 ◗, ◖ 85 =  5 + 5·2^4 ◗, ◖ 1963 = -85 + 1·2^11 ◗]
 1965 /3/ [◖ 1 ◗, ◖ 15 = -1 + 1·2^4 ◗, ◖ 975 =  15 + 15·2^6 ◗, ◖ 1965 =  15 + 975·2^1 ◗]
 1967 /3/ [◖ 1 ◗, ◖ 31 = -1 + 1·2^5 ◗, ◖ 123 = -1 + 31·2^2 ◗, ◖ 1967 = -1 + 123·2^4 ◗]
 1969 /3/ [◖ 1 ◗, ◖ 31 = -1 + 1·2^5 ◗, ◖ 123 = -1 + 31·2^2 ◗, ◖ 1969 =  1 + 123·2^4 ◗]
 1971 /4/ [◖ 1 ◗, ◖ 31 = -1 + 1·2^5 ◗, ◖ 123 = -1 + 31·2^2 ◗, ◖ 493 =  1 + 123·2^2 ◗, ◖ 1971 = -1 + 493·2^2 ◗]
 1973 /3/ [◖ 1 ◗, ◖ 5 =  1 + 1·2^2 ◗, ◖ 75 = -5 + 5·2^4 ◗, ◖ 1973 = -75 + 1·2^11 ◗]
 1975 /3/ [◖ 1 ◗, ◖ 31 = -1 + 1·2^5 ◗, ◖ 247 = -1 + 31·2^3 ◗, ◖ 1975 = -1 + 247·2^3 ◗]
 1977 /3/ [◖ 1 ◗, ◖ 31 = -1 + 1·2^5 ◗, ◖ 247 = -1 + 31·2^3 ◗, ◖ 1977 =  1 + 247·2^3 ◗]
 1979 /3/ [◖ 1 ◗, ◖ 31 = -1 + 1·2^5 ◗, ◖ 495 = -1 + 31·2^4 ◗, ◖ 1979 = -1 + 495·2^2 ◗]
 1981 /3/ [◖ 1 ◗, ◖ 31 = -1 + 1·2^5 ◗, ◖ 495 = -1 + 31·2^4 ◗, ◖ 1981 =  1 + 495·2^2 ◗]
 1983 /2/ [◖ 1 ◗, ◖ 31 = -1 + 1·2^5 ◗, ◖ 1983 = -1 + 31·2^6 ◗]
".
Definition v2_31 : string := " 1985 /2/ [◖ 1 ◗, ◖ 31 = -1 + 1·2^5 ◗, ◖ 1985 =  1 + 31·2^6 ◗]
 1987 /3/ [◖ 1 ◗, ◖ 31 = -1 + 1·2^5 ◗, ◖ 497 =  1 + 31·2^4 ◗, ◖ 1987 = -1 + 497·2^2 ◗]
 1989 /3/ [◖ 1 ◗, ◖ 31 = -1 + 1·2^5 ◗, ◖ 497 =  1 + 31·2^4 ◗, ◖ 1989 =  1 + 497·2^2 ◗]
 1991 /3/ [◖ 1 ◗, ◖ 31 = -1 + 1·2^5 ◗, ◖ 249 =  1 + 31·2^3 ◗, ◖ 1991 = -1 + 249·2^3 ◗]
 1993 /3/ [◖ 1 ◗, ◖ 31 = -1 + 1·2^5 ◗, ◖ 249 =  1 + 31·2^3 ◗, ◖ 1993 =  1 + 249·2^3 ◗]
 1995 /3/ [◖ 1 ◗, ◖ 33 =  1 + 1·2^5 ◗, ◖ 133 =  1 + 33·2^2 ◗, ◖ 1995 = -133 + 133·2^4 ◗]
 1997 /3/ [◖ 1 ◗, ◖ 3 =  1 + 1·2^1 ◗, ◖ 51 =  3 + 3·2^4 ◗, ◖ 1997 = -51 + 1·2^11 ◗]
 1999 /3/ [◖ 1 ◗, ◖ 31 = -1 + 1·2^5 ◗, ◖ 125 =  1 + 31·2^2 ◗, ◖ 1999 = -1 + 125·2^4 ◗]
 2001 /3/ [◖ 1 ◗, ◖ 31 = -1 + 1·2^5 ◗, ◖ 125 =  1 + 31·2^2 ◗, ◖ 2001 =  1 + 125·2^4 ◗]
 2003 /3/ [◖ 1 ◗, ◖ 3 =  1 + 1·2^1 ◗, ◖ 45 = -3 + 3·2^4 ◗, ◖ 2003 = -45 + 1·2^11 ◗]
 2005 /4/ [◖ 1 ◗, ◖ 31 = -1 + 1·2^5 ◗, ◖ 125 =  1 + 31·2^2 ◗, ◖ 501 =  1 + 125·2^2 ◗, ◖ 2005 =  1 + 501·2^2 ◗]
 2007 /3/ [◖ 1 ◗, ◖ 63 = -1 + 1·2^6 ◗, ◖ 251 = -1 + 63·2^2 ◗, ◖ 2007 = -1 + 251·2^3 ◗]
 2009 /3/ [◖ 1 ◗, ◖ 63 = -1 + 1·2^6 ◗, ◖ 251 = -1 + 63·2^2 ◗, ◖ 2009 =  1 + 251·2^3 ◗]
 2011 /3/ [◖ 1 ◗, ◖ 63 = -1 + 1·2^6 ◗, ◖ 503 = -1 + 63·2^3 ◗, ◖ 2011 = -1 + 503·2^2 ◗]
 2013 /3/ [◖ 1 ◗, ◖ 63 = -1 + 1·2^6 ◗, ◖ 503 = -1 + 63·2^3 ◗, ◖ 2013 =  1 + 503·2^2 ◗]
 2015 /2/ [◖ 1 ◗, ◖ 63 = -1 + 1·2^6 ◗, ◖ 2015 = -1 + 63·2^5 ◗]
 2017 /2/ [◖ 1 ◗, ◖ 63 = -1 + 1·2^6 ◗, ◖ 2017 =  1 + 63·2^5 ◗]
 2019 /3/ [◖ 1 ◗, ◖ 63 = -1 + 1·2^6 ◗, ◖ 505 =  1 + 63·2^3 ◗, ◖ 2019 = -1 + 505·2^2 ◗]
 2021 /3/ [◖ 1 ◗, ◖ 63 = -1 + 1·2^6 ◗, ◖ 505 =  1 + 63·2^3 ◗, ◖ 2021 =  1 + 505·2^2 ◗]
 2023 /3/ [◖ 1 ◗, ◖ 63 = -1 + 1·2^6 ◗, ◖ 253 =  1 + 63·2^2 ◗, ◖ 2023 = -1 + 253·2^3 ◗]
 2025 /3/ [◖ 1 ◗, ◖ 63 = -1 + 1·2^6 ◗, ◖ 253 =  1 + 63·2^2 ◗, ◖ 2025 =  1 + 253·2^3 ◗]
 2027 /3/ [◖ 1 ◗, ◖ 127 = -1 + 1·2^7 ◗, ◖ 507 = -1 + 127·2^2 ◗, ◖ 2027 = -1 + 507·2^2 ◗]
 2029 /3/ [◖ 1 ◗, ◖ 127 = -1 + 1·2^7 ◗, ◖ 507 = -1 + 127·2^2 ◗, ◖ 2029 =  1 + 507·2^2 ◗]
 2031 /2/ [◖ 1 ◗, ◖ 127 = -1 + 1·2^7 ◗, ◖ 2031 = -1 + 127·2^4 ◗]
 2033 /2/ [◖ 1 ◗, ◖ 127 = -1 + 1·2^7 ◗, ◖ 2033 =  1 + 127·2^4 ◗]
 2035 /3/ [◖ 1 ◗, ◖ 127 = -1 + 1·2^7 ◗, ◖ 509 =  1 + 127·2^2 ◗, ◖ 2035 = -1 + 509·2^2 ◗]
 2037 /3/ [◖ 1 ◗, ◖ 127 = -1 + 1·2^7 ◗, ◖ 509 =  1 + 127·2^2 ◗, ◖ 2037 =  1 + 509·2^2 ◗]
 2039 /2/ [◖ 1 ◗, ◖ 255 = -1 + 1·2^8 ◗, ◖ 2039 = -1 + 255·2^3 ◗]
 2041 /2/ [◖ 1 ◗, ◖ 255 = -1 + 1·2^8 ◗, ◖ 2041 =  1 + 255·2^3 ◗]
 2043 /2/ [◖ 1 ◗, ◖ 511 = -1 + 1·2^9 ◗, ◖ 2043 = -1 + 511·2^2 ◗]
 2045 /2/ [◖ 1 ◗, ◖ 511 = -1 + 1·2^9 ◗, ◖ 2045 =  1 + 511·2^2 ◗]
 2047 /1/ [◖ 1 ◗, ◖ 2047 = -1 + 1·2^11 ◗]
".
Definition v2_32 : string := " 2049 /1/ [◖ 1 ◗, ◖ 2049 =  1 + 1·2^11 ◗]
 2051 /2/ [◖ 1 ◗, ◖ 513 =  1 + 1·2^9 ◗, ◖ 2051 = -1 + 513·2^2 ◗]
 2053 /2/ [◖ 1 ◗, ◖ 513 =  1 + 1·2^9 ◗, ◖ 2053 =  1 + 513·2^2 ◗]
 2055 /2/ [◖ 1 ◗, ◖ 257 =  1 + 1·2^8 ◗, ◖ 2055 = -1 + 257·2^3 ◗]
 2057 /2/ [◖ 1 ◗, ◖ 257 =  1 + 1·2^8 ◗, ◖ 2057 =  1 + 257·2^3 ◗]
 2059 /3/ [◖ 1 ◗, ◖ 129 =  1 + 1·2^7 ◗, ◖ 515 = -1 + 129·2^2 ◗, ◖ 2059 = -1 + 515·2^2 ◗]
 2061 /3/ [◖ 1 ◗, ◖ 129 =  1 + 1·2^7 ◗, ◖ 515 = -1 + 129·2^2 ◗, ◖ 2061 =  1 + 515·2^2 ◗]
 2063 /2/ [◖ 1 ◗, ◖ 129 =  1 + 1·2^7 ◗, ◖ 2063 = -1 + 129·2^4 ◗]
 2065 /2/ [◖ 1 ◗, ◖ 129 =  1 + 1·2^7 ◗, ◖ 2065 =  1 + 129·2^4 ◗]
 2067 /3/ [◖ 1 ◗, ◖ 129 =  1 + 1·2^7 ◗, ◖ 517 =  1 + 129·2^2 ◗, ◖ 2067 = -1 + 517·2^2 ◗]
 2069 /3/ [◖ 1 ◗, ◖ 129 =  1 + 1·2^7 ◗, ◖ 517 =  1 + 129·2^2 ◗, ◖ 2069 =  1 + 517·2^2 ◗]
 2071 /3/ [◖ 1 ◗, ◖ 65 =  1 + 1·2^6 ◗, ◖ 259 = -1 + 65·2^2 ◗, ◖ 2071 = -1 + 259·2^3 ◗]
 2073 /3/ [◖ 1 ◗, ◖ 65 =  1 + 1·2^6 ◗, ◖ 259 = -1 + 65·2^2 ◗, ◖ 2073 =  1 + 259·2^3 ◗]
 2075 /3/ [◖ 1 ◗, ◖ 65 =  1 + 1·2^6 ◗, ◖ 519 = -1 + 65·2^3 ◗, ◖ 2075 = -1 + 519·2^2 ◗]
 2077 /3/ [◖ 1 ◗, ◖ 65 =  1 + 1·2^6 ◗, ◖ 519 = -1 + 65·2^3 ◗, ◖ 2077 =  1 + 519·2^2 ◗]
 2079 /2/ [◖ 1 ◗, ◖ 65 =  1 + 1·2^6 ◗, ◖ 2079 = -1 + 65·2^5 ◗]
 2081 /2/ [◖ 1 ◗, ◖ 65 =  1 + 1·2^6 ◗, ◖ 2081 =  1 + 65·2^5 ◗]
 2083 /3/ [◖ 1 ◗, ◖ 65 =  1 + 1·2^6 ◗, ◖ 521 =  1 + 65·2^3 ◗, ◖ 2083 = -1 + 521·2^2 ◗]
 2085 /3/ [◖ 1 ◗, ◖ 65 =  1 + 1·2^6 ◗, ◖ 521 =  1 + 65·2^3 ◗, ◖ 2085 =  1 + 521·2^2 ◗]
 2087 /3/ [◖ 1 ◗, ◖ 65 =  1 + 1·2^6 ◗, ◖ 261 =  1 + 65·2^2 ◗, ◖ 2087 = -1 + 261·2^3 ◗]
 2089 /3/ [◖ 1 ◗, ◖ 65 =  1 + 1·2^6 ◗, ◖ 261 =  1 + 65·2^2 ◗, ◖ 2089 =  1 + 261·2^3 ◗]
 2091 /3/ [◖ 1 ◗, ◖ 31 = -1 + 1·2^5 ◗, ◖ 123 = -1 + 31·2^2 ◗, ◖ 2091 =  123 + 123·2^4 ◗]
 2093 /3/ [◖ 1 ◗, ◖ 3 =  1 + 1·2^1 ◗, ◖ 45 = -3 + 3·2^4 ◗, ◖ 2093 =  45 + 1·2^11 ◗]
 2095 /3/ [◖ 1 ◗, ◖ 33 =  1 + 1·2^5 ◗, ◖ 131 = -1 + 33·2^2 ◗, ◖ 2095 = -1 + 131·2^4 ◗]
 2097 /3/ [◖ 1 ◗, ◖ 33 =  1 + 1·2^5 ◗, ◖ 131 = -1 + 33·2^2 ◗, ◖ 2097 =  1 + 131·2^4 ◗]
 2099 /3/ [◖ 1 ◗, ◖ 3 =  1 + 1·2^1 ◗, ◖ 51 =  3 + 3·2^4 ◗, ◖ 2099 =  51 + 1·2^11 ◗]
 2101 /4/ [◖ 1 ◗, ◖ 33 =  1 + 1·2^5 ◗, ◖ 131 = -1 + 33·2^2 ◗, ◖ 525 =  1 + 131·2^2 ◗, ◖ 2101 =  1 + 525·2^2 ◗]
 2103 /3/ [◖ 1 ◗, ◖ 33 =  1 + 1·2^5 ◗, ◖ 263 = -1 + 33·2^3 ◗, ◖ 2103 = -1 + 263·2^3 ◗]
 2105 /3/ [◖ 1 ◗, ◖ 33 =  1 + 1·2^5 ◗, ◖ 263 = -1 + 33·2^3 ◗, ◖ 2105 =  1 + 263·2^3 ◗]
 2107 /3/ [◖ 1 ◗, ◖ 33 =  1 + 1·2^5 ◗, ◖ 527 = -1 + 33·2^4 ◗, ◖ 2107 = -1 + 527·2^2 ◗]
 2109 /3/ [◖ 1 ◗, ◖ 33 =  1 + 1·2^5 ◗, ◖ 527 = -1 + 33·2^4 ◗, ◖ 2109 =  1 + 527·2^2 ◗]
 2111 /2/ [◖ 1 ◗, ◖ 33 =  1 + 1·2^5 ◗, ◖ 2111 = -1 + 33·2^6 ◗]
".
Definition v2_33 : string := " 2113 /2/ [◖ 1 ◗, ◖ 33 =  1 + 1·2^5 ◗, ◖ 2113 =  1 + 33·2^6 ◗]
 2115 /3/ [◖ 1 ◗, ◖ 33 =  1 + 1·2^5 ◗, ◖ 529 =  1 + 33·2^4 ◗, ◖ 2115 = -1 + 529·2^2 ◗]
 2117 /3/ [◖ 1 ◗, ◖ 33 =  1 + 1·2^5 ◗, ◖ 529 =  1 + 33·2^4 ◗, ◖ 2117 =  1 + 529·2^2 ◗]
 2119 /3/ [◖ 1 ◗, ◖ 33 =  1 + 1·2^5 ◗, ◖ 265 =  1 + 33·2^3 ◗, ◖ 2119 = -1 + 265·2^3 ◗]
 2121 /3/ [◖ 1 ◗, ◖ 33 =  1 + 1·2^5 ◗, ◖ 265 =  1 + 33·2^3 ◗, ◖ 2121 =  1 + 265·2^3 ◗]
 2123 /3/ [◖ 1 ◗, ◖ 5 =  1 + 1·2^2 ◗, ◖ 75 = -5 + 5·2^4 ◗, ◖ 2123 =  75 + 1·2^11 ◗]
 2125 /3/ [◖ 1 ◗, ◖ 17 =  1 + 1·2^4 ◗, ◖ 1071 = -17 + 17·2^6 ◗, ◖ 2125 = -17 + 1071·2^1 ◗]
 2127 /3/ [◖ 1 ◗, ◖ 33 =  1 + 1·2^5 ◗, ◖ 133 =  1 + 33·2^2 ◗, ◖ 2127 = -1 + 133·2^4 ◗]
 2129 /3/ [◖ 1 ◗, ◖ 33 =  1 + 1·2^5 ◗, ◖ 133 =  1 + 33·2^2 ◗, ◖ 2129 =  1 + 133·2^4 ◗]
 2131 /4/ [◖ 1 ◗, ◖ 33 =  1 + 1·2^5 ◗, ◖ 133 =  1 + 33·2^2 ◗, ◖ 533 =  1 + 133·2^2 ◗, ◖ 2131 = -1 + 533·2^2 ◗]
 2133 /3/ [◖ 1 ◗, ◖ 5 =  1 + 1·2^2 ◗, ◖ 85 =  5 + 5·2^4 ◗, ◖ 2133 =  85 + 1·2^11 ◗]
 2135 /4/ [◖ 1 ◗, ◖ 17 =  1 + 1·2^4 ◗, ◖ 67 = -1 + 17·2^2 ◗, ◖ 267 = -1 + 67·2^2 ◗, ◖ 2135 = -1 + 267·2^3 ◗]
 2137 /3/ [◖ 1 ◗, ◖ 33 =  1 + 1·2^5 ◗, ◖ 263 = -1 + 33·2^3 ◗, ◖ 2137 =  33 + 263·2^3 ◗]
 2139 /3/ [◖ 1 ◗, ◖ 17 =  1 + 1·2^4 ◗, ◖ 69 =  1 + 17·2^2 ◗, ◖ 2139 = -69 + 69·2^5 ◗]
 2141 /3/ [◖ 1 ◗, ◖ 17 =  1 + 1·2^4 ◗, ◖ 1071 = -17 + 17·2^6 ◗, ◖ 2141 = -1 + 1071·2^1 ◗]
 2143 /3/ [◖ 1 ◗, ◖ 17 =  1 + 1·2^4 ◗, ◖ 67 = -1 + 17·2^2 ◗, ◖ 2143 = -1 + 67·2^5 ◗]
 2145 /2/ [◖ 1 ◗, ◖ 33 =  1 + 1·2^5 ◗, ◖ 2145 =  33 + 33·2^6 ◗]
 2147 /3/ [◖ 1 ◗, ◖ 33 =  1 + 1·2^5 ◗, ◖ 1057 =  1 + 33·2^5 ◗, ◖ 2147 =  33 + 1057·2^1 ◗]
 2149 /3/ [◖ 1 ◗, ◖ 33 =  1 + 1·2^5 ◗, ◖ 529 =  1 + 33·2^4 ◗, ◖ 2149 =  33 + 529·2^2 ◗]
 2151 /3/ [◖ 1 ◗, ◖ 17 =  1 + 1·2^4 ◗, ◖ 271 = -1 + 17·2^4 ◗, ◖ 2151 = -17 + 271·2^3 ◗]
 2153 /3/ [◖ 1 ◗, ◖ 33 =  1 + 1·2^5 ◗, ◖ 265 =  1 + 33·2^3 ◗, ◖ 2153 =  33 + 265·2^3 ◗]
 2155 /3/ [◖ 1 ◗, ◖ 17 =  1 + 1·2^4 ◗, ◖ 543 = -1 + 17·2^5 ◗, ◖ 2155 = -17 + 543·2^2 ◗]
 2157 /3/ [◖ 1 ◗, ◖ 17 =  1 + 1·2^4 ◗, ◖ 1087 = -1 + 17·2^6 ◗, ◖ 2157 = -17 + 1087·2^1 ◗]
 2159 /2/ [◖ 1 ◗, ◖ 17 =  1 + 1·2^4 ◗, ◖ 2159 = -17 + 17·2^7 ◗]
 2161 /3/ [◖ 1 ◗, ◖ 17 =  1 + 1·2^4 ◗, ◖ 135 = -1 + 17·2^3 ◗, ◖ 2161 =  1 + 135·2^4 ◗]
 2163 /3/ [◖ 1 ◗, ◖ 17 =  1 + 1·2^4 ◗, ◖ 545 =  1 + 17·2^5 ◗, ◖ 2163 = -17 + 545·2^2 ◗]
 2165 /4/ [◖ 1 ◗, ◖ 17 =  1 + 1·2^4 ◗, ◖ 135 = -1 + 17·2^3 ◗, ◖ 541 =  1 + 135·2^2 ◗, ◖ 2165 =  1 + 541·2^2 ◗]
 2167 /3/ [◖ 1 ◗, ◖ 17 =  1 + 1·2^4 ◗, ◖ 271 = -1 + 17·2^4 ◗, ◖ 2167 = -1 + 271·2^3 ◗]
 2169 /3/ [◖ 1 ◗, ◖ 17 =  1 + 1·2^4 ◗, ◖ 271 = -1 + 17·2^4 ◗, ◖ 2169 =  1 + 271·2^3 ◗]
 2171 /3/ [◖ 1 ◗, ◖ 17 =  1 + 1·2^4 ◗, ◖ 543 = -1 + 17·2^5 ◗, ◖ 2171 = -1 + 543·2^2 ◗]
 2173 /3/ [◖ 1 ◗, ◖ 17 =  1 + 1·2^4 ◗, ◖ 543 = -1 + 17·2^5 ◗, ◖ 2173 =  1 + 543·2^2 ◗]
 2175 /2/ [◖ 1 ◗, ◖ 17 =  1 + 1·2^4 ◗, ◖ 2175 = -1 + 17·2^7 ◗]
".
Definition v2_34 : string := " 2177 /2/ [◖ 1 ◗, ◖ 17 =  1 + 1·2^4 ◗, ◖ 2177 =  1 + 17·2^7 ◗]
 2179 /3/ [◖ 1 ◗, ◖ 17 =  1 + 1·2^4 ◗, ◖ 545 =  1 + 17·2^5 ◗, ◖ 2179 = -1 + 545·2^2 ◗]
 2181 /3/ [◖ 1 ◗, ◖ 17 =  1 + 1·2^4 ◗, ◖ 545 =  1 + 17·2^5 ◗, ◖ 2181 =  1 + 545·2^2 ◗]
 2183 /3/ [◖ 1 ◗, ◖ 17 =  1 + 1·2^4 ◗, ◖ 273 =  1 + 17·2^4 ◗, ◖ 2183 = -1 + 273·2^3 ◗]
 2185 /3/ [◖ 1 ◗, ◖ 17 =  1 + 1·2^4 ◗, ◖ 273 =  1 + 17·2^4 ◗, ◖ 2185 =  1 + 273·2^3 ◗]
 2187 /4/ [◖ 1 ◗, ◖ 17 =  1 + 1·2^4 ◗, ◖ 137 =  1 + 17·2^3 ◗, ◖ 547 = -1 + 137·2^2 ◗, ◖ 2187 = -1 + 547·2^2 ◗]
 2189 /3/ [◖ 1 ◗, ◖ 17 =  1 + 1·2^4 ◗, ◖ 543 = -1 + 17·2^5 ◗, ◖ 2189 =  17 + 543·2^2 ◗]
 2191 /3/ [◖ 1 ◗, ◖ 17 =  1 + 1·2^4 ◗, ◖ 137 =  1 + 17·2^3 ◗, ◖ 2191 = -1 + 137·2^4 ◗]
 2193 /2/ [◖ 1 ◗, ◖ 17 =  1 + 1·2^4 ◗, ◖ 2193 =  17 + 17·2^7 ◗]
 2195 /3/ [◖ 1 ◗, ◖ 17 =  1 + 1·2^4 ◗, ◖ 1089 =  1 + 17·2^6 ◗, ◖ 2195 =  17 + 1089·2^1 ◗]
 2197 /3/ [◖ 1 ◗, ◖ 17 =  1 + 1·2^4 ◗, ◖ 545 =  1 + 17·2^5 ◗, ◖ 2197 =  17 + 545·2^2 ◗]
 2199 /4/ [◖ 1 ◗, ◖ 17 =  1 + 1·2^4 ◗, ◖ 69 =  1 + 17·2^2 ◗, ◖ 275 = -1 + 69·2^2 ◗, ◖ 2199 = -1 + 275·2^3 ◗]
 2201 /3/ [◖ 1 ◗, ◖ 17 =  1 + 1·2^4 ◗, ◖ 273 =  1 + 17·2^4 ◗, ◖ 2201 =  17 + 273·2^3 ◗]
 2203 /3/ [◖ 1 ◗, ◖ 5 =  1 + 1·2^2 ◗, ◖ 155 = -5 + 5·2^5 ◗, ◖ 2203 =  155 + 1·2^11 ◗]
 2205 /3/ [◖ 1 ◗, ◖ 9 =  1 + 1·2^3 ◗, ◖ 35 = -1 + 9·2^2 ◗, ◖ 2205 = -35 + 35·2^6 ◗]
 2207 /3/ [◖ 1 ◗, ◖ 17 =  1 + 1·2^4 ◗, ◖ 69 =  1 + 17·2^2 ◗, ◖ 2207 = -1 + 69·2^5 ◗]
 2209 /3/ [◖ 1 ◗, ◖ 17 =  1 + 1·2^4 ◗, ◖ 69 =  1 + 17·2^2 ◗, ◖ 2209 =  1 + 69·2^5 ◗]
 2211 /3/ [◖ 1 ◗, ◖ 17 =  1 + 1·2^4 ◗, ◖ 1105 =  17 + 17·2^6 ◗, ◖ 2211 =  1 + 1105·2^1 ◗]
 2213 /3/ [◖ 1 ◗, ◖ 5 =  1 + 1·2^2 ◗, ◖ 165 =  5 + 5·2^5 ◗, ◖ 2213 =  165 + 1·2^11 ◗]
 2215 /4/ [◖ 1 ◗, ◖ 17 =  1 + 1·2^4 ◗, ◖ 69 =  1 + 17·2^2 ◗, ◖ 277 =  1 + 69·2^2 ◗, ◖ 2215 = -1 + 277·2^3 ◗]
 2217 /4/ [◖ 1 ◗, ◖ 17 =  1 + 1·2^4 ◗, ◖ 69 =  1 + 17·2^2 ◗, ◖ 277 =  1 + 69·2^2 ◗, ◖ 2217 =  1 + 277·2^3 ◗]
 2219 /4/ [◖ 1 ◗, ◖ 17 =  1 + 1·2^4 ◗, ◖ 273 =  1 + 17·2^4 ◗, ◖ 1109 =  17 + 273·2^2 ◗, ◖ 2219 =  1 + 1109·2^1 ◗]
 2221 /4/ [◖ 1 ◗, ◖ 9 =  1 + 1·2^3 ◗, ◖ 35 = -1 + 9·2^2 ◗, ◖ 1111 = -9 + 35·2^5 ◗, ◖ 2221 = -1 + 1111·2^1 ◗]
 2223 /3/ [◖ 1 ◗, ◖ 17 =  1 + 1·2^4 ◗, ◖ 2159 = -17 + 17·2^7 ◗, ◖ 2223 =  2159 + 1·2^6 ◗]
 2225 /3/ [◖ 1 ◗, ◖ 17 =  1 + 1·2^4 ◗, ◖ 69 =  1 + 17·2^2 ◗, ◖ 2225 =  17 + 69·2^5 ◗]
 2227 /3/ [◖ 1 ◗, ◖ 17 =  1 + 1·2^4 ◗, ◖ 561 =  17 + 17·2^5 ◗, ◖ 2227 = -17 + 561·2^2 ◗]
 2229 /4/ [◖ 1 ◗, ◖ 9 =  1 + 1·2^3 ◗, ◖ 279 = -9 + 9·2^5 ◗, ◖ 557 = -1 + 279·2^1 ◗, ◖ 2229 =  1 + 557·2^2 ◗]
 2231 /3/ [◖ 1 ◗, ◖ 9 =  1 + 1·2^3 ◗, ◖ 279 = -9 + 9·2^5 ◗, ◖ 2231 = -1 + 279·2^3 ◗]
 2233 /3/ [◖ 1 ◗, ◖ 9 =  1 + 1·2^3 ◗, ◖ 279 = -9 + 9·2^5 ◗, ◖ 2233 =  1 + 279·2^3 ◗]
 2235 /3/ [◖ 1 ◗, ◖ 7 = -1 + 1·2^3 ◗, ◖ 447 = -1 + 7·2^6 ◗, ◖ 2235 =  447 + 447·2^2 ◗]
 2237 /3/ [◖ 1 ◗, ◖ 3 =  1 + 1·2^1 ◗, ◖ 189 = -3 + 3·2^6 ◗, ◖ 2237 =  189 + 1·2^11 ◗]
 2239 /3/ [◖ 1 ◗, ◖ 9 =  1 + 1·2^3 ◗, ◖ 35 = -1 + 9·2^2 ◗, ◖ 2239 = -1 + 35·2^6 ◗]
".
Definition v2_35 : string := " 2241 /3/ [◖ 1 ◗, ◖ 9 =  1 + 1·2^3 ◗, ◖ 35 = -1 + 9·2^2 ◗, ◖ 2241 =  1 + 35·2^6 ◗]
 2243 /3/ [◖ 1 ◗, ◖ 17 =  1 + 1·2^4 ◗, ◖ 561 =  17 + 17·2^5 ◗, ◖ 2243 = -1 + 561·2^2 ◗]
 2245 /3/ [◖ 1 ◗, ◖ 17 =  1 + 1·2^4 ◗, ◖ 561 =  17 + 17·2^5 ◗, ◖ 2245 =  1 + 561·2^2 ◗]
 2247 /3/ [◖ 1 ◗, ◖ 5 =  1 + 1·2^2 ◗, ◖ 321 =  1 + 5·2^6 ◗, ◖ 2247 = -321 + 321·2^3 ◗]
 2249 /3/ [◖ 1 ◗, ◖ 9 =  1 + 1·2^3 ◗, ◖ 35 = -1 + 9·2^2 ◗, ◖ 2249 =  9 + 35·2^6 ◗]
 2251 /4/ [◖ 1 ◗, ◖ 9 =  1 + 1·2^3 ◗, ◖ 143 = -1 + 9·2^4 ◗, ◖ 563 = -9 + 143·2^2 ◗, ◖ 2251 = -1 + 563·2^2 ◗]
 2253 /4/ [◖ 1 ◗, ◖ 9 =  1 + 1·2^3 ◗, ◖ 71 = -1 + 9·2^3 ◗, ◖ 1127 = -9 + 71·2^4 ◗, ◖ 2253 = -1 + 1127·2^1 ◗]
 2255 /4/ [◖ 1 ◗, ◖ 9 =  1 + 1·2^3 ◗, ◖ 35 = -1 + 9·2^2 ◗, ◖ 141 =  1 + 35·2^2 ◗, ◖ 2255 = -1 + 141·2^4 ◗]
 2257 /3/ [◖ 1 ◗, ◖ 17 =  1 + 1·2^4 ◗, ◖ 2193 =  17 + 17·2^7 ◗, ◖ 2257 =  2193 + 1·2^6 ◗]
 2259 /3/ [◖ 1 ◗, ◖ 9 =  1 + 1·2^3 ◗, ◖ 567 = -9 + 9·2^6 ◗, ◖ 2259 = -9 + 567·2^2 ◗]
 2261 /3/ [◖ 1 ◗, ◖ 17 =  1 + 1·2^4 ◗, ◖ 561 =  17 + 17·2^5 ◗, ◖ 2261 =  17 + 561·2^2 ◗]
 2263 /3/ [◖ 1 ◗, ◖ 9 =  1 + 1·2^3 ◗, ◖ 71 = -1 + 9·2^3 ◗, ◖ 2263 = -9 + 71·2^5 ◗]
 2265 /3/ [◖ 1 ◗, ◖ 7 = -1 + 1·2^3 ◗, ◖ 217 = -7 + 7·2^5 ◗, ◖ 2265 =  217 + 1·2^11 ◗]
 2267 /3/ [◖ 1 ◗, ◖ 9 =  1 + 1·2^3 ◗, ◖ 567 = -9 + 9·2^6 ◗, ◖ 2267 = -1 + 567·2^2 ◗]
 2269 /3/ [◖ 1 ◗, ◖ 9 =  1 + 1·2^3 ◗, ◖ 567 = -9 + 9·2^6 ◗, ◖ 2269 =  1 + 567·2^2 ◗]
 2271 /3/ [◖ 1 ◗, ◖ 9 =  1 + 1·2^3 ◗, ◖ 71 = -1 + 9·2^3 ◗, ◖ 2271 = -1 + 71·2^5 ◗]
 2273 /3/ [◖ 1 ◗, ◖ 9 =  1 + 1·2^3 ◗, ◖ 71 = -1 + 9·2^3 ◗, ◖ 2273 =  1 + 71·2^5 ◗]
 2275 /3/ [◖ 1 ◗, ◖ 9 =  1 + 1·2^3 ◗, ◖ 35 = -1 + 9·2^2 ◗, ◖ 2275 =  35 + 35·2^6 ◗]
 2277 /3/ [◖ 1 ◗, ◖ 9 =  1 + 1·2^3 ◗, ◖ 567 = -9 + 9·2^6 ◗, ◖ 2277 =  9 + 567·2^2 ◗]
 2279 /3/ [◖ 1 ◗, ◖ 9 =  1 + 1·2^3 ◗, ◖ 143 = -1 + 9·2^4 ◗, ◖ 2279 = -9 + 143·2^4 ◗]
 2281 /3/ [◖ 1 ◗, ◖ 9 =  1 + 1·2^3 ◗, ◖ 71 = -1 + 9·2^3 ◗, ◖ 2281 =  9 + 71·2^5 ◗]
 2283 /4/ [◖ 1 ◗, ◖ 9 =  1 + 1·2^3 ◗, ◖ 143 = -1 + 9·2^4 ◗, ◖ 571 = -1 + 143·2^2 ◗, ◖ 2283 = -1 + 571·2^2 ◗]
 2285 /3/ [◖ 1 ◗, ◖ 9 =  1 + 1·2^3 ◗, ◖ 1143 = -9 + 9·2^7 ◗, ◖ 2285 = -1 + 1143·2^1 ◗]
 2287 /3/ [◖ 1 ◗, ◖ 9 =  1 + 1·2^3 ◗, ◖ 143 = -1 + 9·2^4 ◗, ◖ 2287 = -1 + 143·2^4 ◗]
 2289 /3/ [◖ 1 ◗, ◖ 9 =  1 + 1·2^3 ◗, ◖ 143 = -1 + 9·2^4 ◗, ◖ 2289 =  1 + 143·2^4 ◗]
 2291 /3/ [◖ 1 ◗, ◖ 9 =  1 + 1·2^3 ◗, ◖ 575 = -1 + 9·2^6 ◗, ◖ 2291 = -9 + 575·2^2 ◗]
 2293 /3/ [◖ 1 ◗, ◖ 9 =  1 + 1·2^3 ◗, ◖ 1151 = -1 + 9·2^7 ◗, ◖ 2293 = -9 + 1151·2^1 ◗]
 2295 /2/ [◖ 1 ◗, ◖ 9 =  1 + 1·2^3 ◗, ◖ 2295 = -9 + 9·2^8 ◗]
 2297 /3/ [◖ 1 ◗, ◖ 9 =  1 + 1·2^3 ◗, ◖ 287 = -1 + 9·2^5 ◗, ◖ 2297 =  1 + 287·2^3 ◗]
 2299 /3/ [◖ 1 ◗, ◖ 9 =  1 + 1·2^3 ◗, ◖ 575 = -1 + 9·2^6 ◗, ◖ 2299 = -1 + 575·2^2 ◗]
 2301 /3/ [◖ 1 ◗, ◖ 9 =  1 + 1·2^3 ◗, ◖ 575 = -1 + 9·2^6 ◗, ◖ 2301 =  1 + 575·2^2 ◗]
 2303 /2/ [◖ 1 ◗, ◖ 9 =  1 + 1·2^3 ◗, ◖ 2303 = -1 + 9·2^8 ◗]
".
Definition v2_36 : string := " 2305 /2/ [◖ 1 ◗, ◖ 9 =  1 + 1·2^3 ◗, ◖ 2305 =  1 + 9·2^8 ◗]
 2307 /3/ [◖ 1 ◗, ◖ 9 =  1 + 1·2^3 ◗, ◖ 577 =  1 + 9·2^6 ◗, ◖ 2307 = -1 + 577·2^2 ◗]
 2309 /3/ [◖ 1 ◗, ◖ 9 =  1 + 1·2^3 ◗, ◖ 577 =  1 + 9·2^6 ◗, ◖ 2309 =  1 + 577·2^2 ◗]
 2311 /3/ [◖ 1 ◗, ◖ 9 =  1 + 1·2^3 ◗, ◖ 289 =  1 + 9·2^5 ◗, ◖ 2311 = -1 + 289·2^3 ◗]
 2313 /2/ [◖ 1 ◗, ◖ 9 =  1 + 1·2^3 ◗, ◖ 2313 =  9 + 9·2^8 ◗]
 2315 /3/ [◖ 1 ◗, ◖ 9 =  1 + 1·2^3 ◗, ◖ 1153 =  1 + 9·2^7 ◗, ◖ 2315 =  9 + 1153·2^1 ◗]
 2317 /3/ [◖ 1 ◗, ◖ 9 =  1 + 1·2^3 ◗, ◖ 577 =  1 + 9·2^6 ◗, ◖ 2317 =  9 + 577·2^2 ◗]
 2319 /3/ [◖ 1 ◗, ◖ 9 =  1 + 1·2^3 ◗, ◖ 145 =  1 + 9·2^4 ◗, ◖ 2319 = -1 + 145·2^4 ◗]
 2321 /3/ [◖ 1 ◗, ◖ 9 =  1 + 1·2^3 ◗, ◖ 145 =  1 + 9·2^4 ◗, ◖ 2321 =  1 + 145·2^4 ◗]
 2323 /3/ [◖ 1 ◗, ◖ 9 =  1 + 1·2^3 ◗, ◖ 1161 =  9 + 9·2^7 ◗, ◖ 2323 =  1 + 1161·2^1 ◗]
 2325 /3/ [◖ 1 ◗, ◖ 5 =  1 + 1·2^2 ◗, ◖ 75 = -5 + 5·2^4 ◗, ◖ 2325 = -75 + 75·2^5 ◗]
 2327 /3/ [◖ 1 ◗, ◖ 9 =  1 + 1·2^3 ◗, ◖ 73 =  1 + 9·2^3 ◗, ◖ 2327 = -9 + 73·2^5 ◗]
 2329 /3/ [◖ 1 ◗, ◖ 9 =  1 + 1·2^3 ◗, ◖ 145 =  1 + 9·2^4 ◗, ◖ 2329 =  9 + 145·2^4 ◗]
 2331 /3/ [◖ 1 ◗, ◖ 9 =  1 + 1·2^3 ◗, ◖ 585 =  9 + 9·2^6 ◗, ◖ 2331 = -9 + 585·2^2 ◗]
 2333 /4/ [◖ 1 ◗, ◖ 9 =  1 + 1·2^3 ◗, ◖ 73 =  1 + 9·2^3 ◗, ◖ 583 = -1 + 73·2^3 ◗, ◖ 2333 =  1 + 583·2^2 ◗]
 2335 /3/ [◖ 1 ◗, ◖ 9 =  1 + 1·2^3 ◗, ◖ 73 =  1 + 9·2^3 ◗, ◖ 2335 = -1 + 73·2^5 ◗]
 2337 /3/ [◖ 1 ◗, ◖ 9 =  1 + 1·2^3 ◗, ◖ 73 =  1 + 9·2^3 ◗, ◖ 2337 =  1 + 73·2^5 ◗]
 2339 /3/ [◖ 1 ◗, ◖ 9 =  1 + 1·2^3 ◗, ◖ 585 =  9 + 9·2^6 ◗, ◖ 2339 = -1 + 585·2^2 ◗]
 2341 /3/ [◖ 1 ◗, ◖ 9 =  1 + 1·2^3 ◗, ◖ 585 =  9 + 9·2^6 ◗, ◖ 2341 =  1 + 585·2^2 ◗]
 2343 /3/ [◖ 1 ◗, ◖ 9 =  1 + 1·2^3 ◗, ◖ 71 = -1 + 9·2^3 ◗, ◖ 2343 =  71 + 71·2^5 ◗]
 2345 /3/ [◖ 1 ◗, ◖ 9 =  1 + 1·2^3 ◗, ◖ 73 =  1 + 9·2^3 ◗, ◖ 2345 =  9 + 73·2^5 ◗]
 2347 /4/ [◖ 1 ◗, ◖ 9 =  1 + 1·2^3 ◗, ◖ 289 =  1 + 9·2^5 ◗, ◖ 587 =  9 + 289·2^1 ◗, ◖ 2347 = -1 + 587·2^2 ◗]
 2349 /3/ [◖ 1 ◗, ◖ 9 =  1 + 1·2^3 ◗, ◖ 585 =  9 + 9·2^6 ◗, ◖ 2349 =  9 + 585·2^2 ◗]
 2351 /4/ [◖ 1 ◗, ◖ 9 =  1 + 1·2^3 ◗, ◖ 37 =  1 + 9·2^2 ◗, ◖ 147 = -1 + 37·2^2 ◗, ◖ 2351 = -1 + 147·2^4 ◗]
 2353 /4/ [◖ 1 ◗, ◖ 9 =  1 + 1·2^3 ◗, ◖ 37 =  1 + 9·2^2 ◗, ◖ 147 = -1 + 37·2^2 ◗, ◖ 2353 =  1 + 147·2^4 ◗]
 2355 /4/ [◖ 1 ◗, ◖ 9 =  1 + 1·2^3 ◗, ◖ 73 =  1 + 9·2^3 ◗, ◖ 1177 =  9 + 73·2^4 ◗, ◖ 2355 =  1 + 1177·2^1 ◗]
 2357 /4/ [◖ 1 ◗, ◖ 9 =  1 + 1·2^3 ◗, ◖ 145 =  1 + 9·2^4 ◗, ◖ 589 =  9 + 145·2^2 ◗, ◖ 2357 =  1 + 589·2^2 ◗]
 2359 /3/ [◖ 1 ◗, ◖ 9 =  1 + 1·2^3 ◗, ◖ 37 =  1 + 9·2^2 ◗, ◖ 2359 = -9 + 37·2^6 ◗]
 2361 /4/ [◖ 1 ◗, ◖ 9 =  1 + 1·2^3 ◗, ◖ 37 =  1 + 9·2^2 ◗, ◖ 295 = -1 + 37·2^3 ◗, ◖ 2361 =  1 + 295·2^3 ◗]
 2363 /3/ [◖ 1 ◗, ◖ 5 =  1 + 1·2^2 ◗, ◖ 315 = -5 + 5·2^6 ◗, ◖ 2363 =  315 + 1·2^11 ◗]
 2365 /4/ [◖ 1 ◗, ◖ 9 =  1 + 1·2^3 ◗, ◖ 37 =  1 + 9·2^2 ◗, ◖ 591 = -1 + 37·2^4 ◗, ◖ 2365 =  1 + 591·2^2 ◗]
 2367 /3/ [◖ 1 ◗, ◖ 9 =  1 + 1·2^3 ◗, ◖ 37 =  1 + 9·2^2 ◗, ◖ 2367 = -1 + 37·2^6 ◗]
".
Definition v2_37 : string := " 2369 /3/ [◖ 1 ◗, ◖ 9 =  1 + 1·2^3 ◗, ◖ 37 =  1 + 9·2^2 ◗, ◖ 2369 =  1 + 37·2^6 ◗]
 2371 /4/ [◖ 1 ◗, ◖ 9 =  1 + 1·2^3 ◗, ◖ 37 =  1 + 9·2^2 ◗, ◖ 593 =  1 + 37·2^4 ◗, ◖ 2371 = -1 + 593·2^2 ◗]
 2373 /3/ [◖ 1 ◗, ◖ 5 =  1 + 1·2^2 ◗, ◖ 325 =  5 + 5·2^6 ◗, ◖ 2373 =  325 + 1·2^11 ◗]
 2375 /3/ [◖ 1 ◗, ◖ 9 =  1 + 1·2^3 ◗, ◖ 297 =  9 + 9·2^5 ◗, ◖ 2375 = -1 + 297·2^3 ◗]
 2377 /3/ [◖ 1 ◗, ◖ 9 =  1 + 1·2^3 ◗, ◖ 297 =  9 + 9·2^5 ◗, ◖ 2377 =  1 + 297·2^3 ◗]
 2379 /4/ [◖ 1 ◗, ◖ 9 =  1 + 1·2^3 ◗, ◖ 297 =  9 + 9·2^5 ◗, ◖ 595 =  1 + 297·2^1 ◗, ◖ 2379 = -1 + 595·2^2 ◗]
 2381 /4/ [◖ 1 ◗, ◖ 9 =  1 + 1·2^3 ◗, ◖ 297 =  9 + 9·2^5 ◗, ◖ 595 =  1 + 297·2^1 ◗, ◖ 2381 =  1 + 595·2^2 ◗]
 2383 /4/ [◖ 1 ◗, ◖ 9 =  1 + 1·2^3 ◗, ◖ 37 =  1 + 9·2^2 ◗, ◖ 149 =  1 + 37·2^2 ◗, ◖ 2383 = -1 + 149·2^4 ◗]
 2385 /3/ [◖ 1 ◗, ◖ 5 =  1 + 1·2^2 ◗, ◖ 159 = -1 + 5·2^5 ◗, ◖ 2385 = -159 + 159·2^4 ◗]
 2387 /4/ [◖ 1 ◗, ◖ 9 =  1 + 1·2^3 ◗, ◖ 37 =  1 + 9·2^2 ◗, ◖ 1193 =  9 + 37·2^5 ◗, ◖ 2387 =  1 + 1193·2^1 ◗]
 2389 /4/ [◖ 1 ◗, ◖ 5 =  1 + 1·2^2 ◗, ◖ 75 = -5 + 5·2^4 ◗, ◖ 1195 = -5 + 75·2^4 ◗, ◖ 2389 = -1 + 1195·2^1 ◗]
 2391 /4/ [◖ 1 ◗, ◖ 5 =  1 + 1·2^2 ◗, ◖ 75 = -5 + 5·2^4 ◗, ◖ 299 = -1 + 75·2^2 ◗, ◖ 2391 = -1 + 299·2^3 ◗]
 2393 /4/ [◖ 1 ◗, ◖ 5 =  1 + 1·2^2 ◗, ◖ 75 = -5 + 5·2^4 ◗, ◖ 299 = -1 + 75·2^2 ◗, ◖ 2393 =  1 + 299·2^3 ◗]
 2395 /3/ [◖ 1 ◗, ◖ 5 =  1 + 1·2^2 ◗, ◖ 75 = -5 + 5·2^4 ◗, ◖ 2395 = -5 + 75·2^5 ◗]
 2397 /4/ [◖ 1 ◗, ◖ 5 =  1 + 1·2^2 ◗, ◖ 75 = -5 + 5·2^4 ◗, ◖ 599 = -1 + 75·2^3 ◗, ◖ 2397 =  1 + 599·2^2 ◗]
 2399 /3/ [◖ 1 ◗, ◖ 5 =  1 + 1·2^2 ◗, ◖ 75 = -5 + 5·2^4 ◗, ◖ 2399 = -1 + 75·2^5 ◗]
 2401 /3/ [◖ 1 ◗, ◖ 5 =  1 + 1·2^2 ◗, ◖ 75 = -5 + 5·2^4 ◗, ◖ 2401 =  1 + 75·2^5 ◗]
 2403 /4/ [◖ 1 ◗, ◖ 5 =  1 + 1·2^2 ◗, ◖ 75 = -5 + 5·2^4 ◗, ◖ 601 =  1 + 75·2^3 ◗, ◖ 2403 = -1 + 601·2^2 ◗]
 2405 /3/ [◖ 1 ◗, ◖ 5 =  1 + 1·2^2 ◗, ◖ 75 = -5 + 5·2^4 ◗, ◖ 2405 =  5 + 75·2^5 ◗]
 2407 /4/ [◖ 1 ◗, ◖ 5 =  1 + 1·2^2 ◗, ◖ 75 = -5 + 5·2^4 ◗, ◖ 301 =  1 + 75·2^2 ◗, ◖ 2407 = -1 + 301·2^3 ◗]
 2409 /3/ [◖ 1 ◗, ◖ 9 =  1 + 1·2^3 ◗, ◖ 73 =  1 + 9·2^3 ◗, ◖ 2409 =  73 + 73·2^5 ◗]
 2411 /4/ [◖ 1 ◗, ◖ 5 =  1 + 1·2^2 ◗, ◖ 19 = -1 + 5·2^2 ◗, ◖ 603 = -5 + 19·2^5 ◗, ◖ 2411 = -1 + 603·2^2 ◗]
 2413 /3/ [◖ 1 ◗, ◖ 5 =  1 + 1·2^2 ◗, ◖ 19 = -1 + 5·2^2 ◗, ◖ 2413 = -19 + 19·2^7 ◗]
 2415 /3/ [◖ 1 ◗, ◖ 5 =  1 + 1·2^2 ◗, ◖ 161 =  1 + 5·2^5 ◗, ◖ 2415 = -161 + 161·2^4 ◗]
 2417 /3/ [◖ 1 ◗, ◖ 15 = -1 + 1·2^4 ◗, ◖ 1905 = -15 + 15·2^7 ◗, ◖ 2417 =  1905 + 1·2^9 ◗]
 2419 /4/ [◖ 1 ◗, ◖ 5 =  1 + 1·2^2 ◗, ◖ 75 = -5 + 5·2^4 ◗, ◖ 605 =  5 + 75·2^3 ◗, ◖ 2419 = -1 + 605·2^2 ◗]
 2421 /4/ [◖ 1 ◗, ◖ 5 =  1 + 1·2^2 ◗, ◖ 19 = -1 + 5·2^2 ◗, ◖ 1211 = -5 + 19·2^6 ◗, ◖ 2421 = -1 + 1211·2^1 ◗]
 2423 /3/ [◖ 1 ◗, ◖ 9 =  1 + 1·2^3 ◗, ◖ 2295 = -9 + 9·2^8 ◗, ◖ 2423 =  2295 + 1·2^7 ◗]
 2425 /4/ [◖ 1 ◗, ◖ 5 =  1 + 1·2^2 ◗, ◖ 19 = -1 + 5·2^2 ◗, ◖ 303 = -1 + 19·2^4 ◗, ◖ 2425 =  1 + 303·2^3 ◗]
 2427 /3/ [◖ 1 ◗, ◖ 5 =  1 + 1·2^2 ◗, ◖ 19 = -1 + 5·2^2 ◗, ◖ 2427 = -5 + 19·2^7 ◗]
 2429 /3/ [◖ 1 ◗, ◖ 3 =  1 + 1·2^1 ◗, ◖ 381 = -3 + 3·2^7 ◗, ◖ 2429 =  381 + 1·2^11 ◗]
 2431 /3/ [◖ 1 ◗, ◖ 5 =  1 + 1·2^2 ◗, ◖ 19 = -1 + 5·2^2 ◗, ◖ 2431 = -1 + 19·2^7 ◗]
".
Definition v2_38 : string := " 2433 /3/ [◖ 1 ◗, ◖ 5 =  1 + 1·2^2 ◗, ◖ 19 = -1 + 5·2^2 ◗, ◖ 2433 =  1 + 19·2^7 ◗]
 2435 /3/ [◖ 1 ◗, ◖ 3 =  1 + 1·2^1 ◗, ◖ 387 =  3 + 3·2^7 ◗, ◖ 2435 =  387 + 1·2^11 ◗]
 2437 /3/ [◖ 1 ◗, ◖ 5 =  1 + 1·2^2 ◗, ◖ 19 = -1 + 5·2^2 ◗, ◖ 2437 =  5 + 19·2^7 ◗]
 2439 /3/ [◖ 1 ◗, ◖ 9 =  1 + 1·2^3 ◗, ◖ 153 =  9 + 9·2^4 ◗, ◖ 2439 = -9 + 153·2^4 ◗]
 2441 /3/ [◖ 1 ◗, ◖ 9 =  1 + 1·2^3 ◗, ◖ 2313 =  9 + 9·2^8 ◗, ◖ 2441 =  2313 + 1·2^7 ◗]
 2443 /4/ [◖ 1 ◗, ◖ 9 =  1 + 1·2^3 ◗, ◖ 153 =  9 + 9·2^4 ◗, ◖ 611 = -1 + 153·2^2 ◗, ◖ 2443 = -1 + 611·2^2 ◗]
 2445 /4/ [◖ 1 ◗, ◖ 9 =  1 + 1·2^3 ◗, ◖ 153 =  9 + 9·2^4 ◗, ◖ 611 = -1 + 153·2^2 ◗, ◖ 2445 =  1 + 611·2^2 ◗]
 2447 /3/ [◖ 1 ◗, ◖ 9 =  1 + 1·2^3 ◗, ◖ 153 =  9 + 9·2^4 ◗, ◖ 2447 = -1 + 153·2^4 ◗]
 2449 /3/ [◖ 1 ◗, ◖ 9 =  1 + 1·2^3 ◗, ◖ 153 =  9 + 9·2^4 ◗, ◖ 2449 =  1 + 153·2^4 ◗]
 2451 /3/ [◖ 1 ◗, ◖ 5 =  1 + 1·2^2 ◗, ◖ 19 = -1 + 5·2^2 ◗, ◖ 2451 =  19 + 19·2^7 ◗]
 2453 /4/ [◖ 1 ◗, ◖ 9 =  1 + 1·2^3 ◗, ◖ 153 =  9 + 9·2^4 ◗, ◖ 613 =  1 + 153·2^2 ◗, ◖ 2453 =  1 + 613·2^2 ◗]
 2455 /4/ [◖ 1 ◗, ◖ 9 =  1 + 1·2^3 ◗, ◖ 153 =  9 + 9·2^4 ◗, ◖ 307 =  1 + 153·2^1 ◗, ◖ 2455 = -1 + 307·2^3 ◗]
 2457 /3/ [◖ 1 ◗, ◖ 9 =  1 + 1·2^3 ◗, ◖ 153 =  9 + 9·2^4 ◗, ◖ 2457 =  9 + 153·2^4 ◗]
 2459 /4/ [◖ 1 ◗, ◖ 5 =  1 + 1·2^2 ◗, ◖ 41 =  1 + 5·2^3 ◗, ◖ 615 = -41 + 41·2^4 ◗, ◖ 2459 = -1 + 615·2^2 ◗]
 2461 /4/ [◖ 1 ◗, ◖ 5 =  1 + 1·2^2 ◗, ◖ 41 =  1 + 5·2^3 ◗, ◖ 615 = -41 + 41·2^4 ◗, ◖ 2461 =  1 + 615·2^2 ◗]
 2463 /4/ [◖ 1 ◗, ◖ 5 =  1 + 1·2^2 ◗, ◖ 19 = -1 + 5·2^2 ◗, ◖ 77 =  1 + 19·2^2 ◗, ◖ 2463 = -1 + 77·2^5 ◗]
 2465 /3/ [◖ 1 ◗, ◖ 31 = -1 + 1·2^5 ◗, ◖ 1953 = -31 + 31·2^6 ◗, ◖ 2465 =  1953 + 1·2^9 ◗]
 2467 /4/ [◖ 1 ◗, ◖ 9 =  1 + 1·2^3 ◗, ◖ 585 =  9 + 9·2^6 ◗, ◖ 617 =  585 + 1·2^5 ◗, ◖ 2467 = -1 + 617·2^2 ◗]
 2469 /4/ [◖ 1 ◗, ◖ 5 =  1 + 1·2^2 ◗, ◖ 155 = -5 + 5·2^5 ◗, ◖ 1235 = -5 + 155·2^3 ◗, ◖ 2469 = -1 + 1235·2^1 ◗]
 2471 /4/ [◖ 1 ◗, ◖ 5 =  1 + 1·2^2 ◗, ◖ 155 = -5 + 5·2^5 ◗, ◖ 309 = -1 + 155·2^1 ◗, ◖ 2471 = -1 + 309·2^3 ◗]
 2473 /4/ [◖ 1 ◗, ◖ 5 =  1 + 1·2^2 ◗, ◖ 155 = -5 + 5·2^5 ◗, ◖ 309 = -1 + 155·2^1 ◗, ◖ 2473 =  1 + 309·2^3 ◗]
 2475 /3/ [◖ 1 ◗, ◖ 5 =  1 + 1·2^2 ◗, ◖ 155 = -5 + 5·2^5 ◗, ◖ 2475 = -5 + 155·2^4 ◗]
 2477 /4/ [◖ 1 ◗, ◖ 5 =  1 + 1·2^2 ◗, ◖ 155 = -5 + 5·2^5 ◗, ◖ 619 = -1 + 155·2^2 ◗, ◖ 2477 =  1 + 619·2^2 ◗]
 2479 /3/ [◖ 1 ◗, ◖ 5 =  1 + 1·2^2 ◗, ◖ 155 = -5 + 5·2^5 ◗, ◖ 2479 = -1 + 155·2^4 ◗]
 2481 /3/ [◖ 1 ◗, ◖ 5 =  1 + 1·2^2 ◗, ◖ 155 = -5 + 5·2^5 ◗, ◖ 2481 =  1 + 155·2^4 ◗]
 2483 /4/ [◖ 1 ◗, ◖ 5 =  1 + 1·2^2 ◗, ◖ 155 = -5 + 5·2^5 ◗, ◖ 621 =  1 + 155·2^2 ◗, ◖ 2483 = -1 + 621·2^2 ◗]
 2485 /3/ [◖ 1 ◗, ◖ 5 =  1 + 1·2^2 ◗, ◖ 155 = -5 + 5·2^5 ◗, ◖ 2485 =  5 + 155·2^4 ◗]
 2487 /4/ [◖ 1 ◗, ◖ 5 =  1 + 1·2^2 ◗, ◖ 39 = -1 + 5·2^3 ◗, ◖ 311 = -1 + 39·2^3 ◗, ◖ 2487 = -1 + 311·2^3 ◗]
 2489 /3/ [◖ 1 ◗, ◖ 7 = -1 + 1·2^3 ◗, ◖ 441 = -7 + 7·2^6 ◗, ◖ 2489 =  441 + 1·2^11 ◗]
 2491 /3/ [◖ 1 ◗, ◖ 5 =  1 + 1·2^2 ◗, ◖ 39 = -1 + 5·2^3 ◗, ◖ 2491 = -5 + 39·2^6 ◗]
 2493 /4/ [◖ 1 ◗, ◖ 5 =  1 + 1·2^2 ◗, ◖ 39 = -1 + 5·2^3 ◗, ◖ 623 = -1 + 39·2^4 ◗, ◖ 2493 =  1 + 623·2^2 ◗]
 2495 /3/ [◖ 1 ◗, ◖ 5 =  1 + 1·2^2 ◗, ◖ 39 = -1 + 5·2^3 ◗, ◖ 2495 = -1 + 39·2^6 ◗]
".
Definition v2_39 : string := " 2497 /3/ [◖ 1 ◗, ◖ 5 =  1 + 1·2^2 ◗, ◖ 39 = -1 + 5·2^3 ◗, ◖ 2497 =  1 + 39·2^6 ◗]
 2499 /4/ [◖ 1 ◗, ◖ 5 =  1 + 1·2^2 ◗, ◖ 39 = -1 + 5·2^3 ◗, ◖ 625 =  1 + 39·2^4 ◗, ◖ 2499 = -1 + 625·2^2 ◗]
 2501 /3/ [◖ 1 ◗, ◖ 5 =  1 + 1·2^2 ◗, ◖ 39 = -1 + 5·2^3 ◗, ◖ 2501 =  5 + 39·2^6 ◗]
 2503 /3/ [◖ 1 ◗, ◖ 7 = -1 + 1·2^3 ◗, ◖ 455 =  7 + 7·2^6 ◗, ◖ 2503 =  455 + 1·2^11 ◗]
 2505 /4/ [◖ 1 ◗, ◖ 5 =  1 + 1·2^2 ◗, ◖ 39 = -1 + 5·2^3 ◗, ◖ 313 =  1 + 39·2^3 ◗, ◖ 2505 =  1 + 313·2^3 ◗]
 2507 /4/ [◖ 1 ◗, ◖ 5 =  1 + 1·2^2 ◗, ◖ 39 = -1 + 5·2^3 ◗, ◖ 1253 =  5 + 39·2^5 ◗, ◖ 2507 =  1 + 1253·2^1 ◗]
 2509 /4/ [◖ 1 ◗, ◖ 5 =  1 + 1·2^2 ◗, ◖ 79 = -1 + 5·2^4 ◗, ◖ 627 = -5 + 79·2^3 ◗, ◖ 2509 =  1 + 627·2^2 ◗]
 2511 /3/ [◖ 1 ◗, ◖ 5 =  1 + 1·2^2 ◗, ◖ 81 =  1 + 5·2^4 ◗, ◖ 2511 = -81 + 81·2^5 ◗]
 2513 /3/ [◖ 1 ◗, ◖ 15 = -1 + 1·2^4 ◗, ◖ 465 = -15 + 15·2^5 ◗, ◖ 2513 =  465 + 1·2^11 ◗]
 2515 /3/ [◖ 1 ◗, ◖ 5 =  1 + 1·2^2 ◗, ◖ 315 = -5 + 5·2^6 ◗, ◖ 2515 = -5 + 315·2^3 ◗]
 2517 /4/ [◖ 1 ◗, ◖ 5 =  1 + 1·2^2 ◗, ◖ 315 = -5 + 5·2^6 ◗, ◖ 629 = -1 + 315·2^1 ◗, ◖ 2517 =  1 + 629·2^2 ◗]
 2519 /3/ [◖ 1 ◗, ◖ 5 =  1 + 1·2^2 ◗, ◖ 315 = -5 + 5·2^6 ◗, ◖ 2519 = -1 + 315·2^3 ◗]
 2521 /3/ [◖ 1 ◗, ◖ 5 =  1 + 1·2^2 ◗, ◖ 315 = -5 + 5·2^6 ◗, ◖ 2521 =  1 + 315·2^3 ◗]
 2523 /3/ [◖ 1 ◗, ◖ 5 =  1 + 1·2^2 ◗, ◖ 79 = -1 + 5·2^4 ◗, ◖ 2523 = -5 + 79·2^5 ◗]
 2525 /3/ [◖ 1 ◗, ◖ 5 =  1 + 1·2^2 ◗, ◖ 315 = -5 + 5·2^6 ◗, ◖ 2525 =  5 + 315·2^3 ◗]
 2527 /3/ [◖ 1 ◗, ◖ 5 =  1 + 1·2^2 ◗, ◖ 79 = -1 + 5·2^4 ◗, ◖ 2527 = -1 + 79·2^5 ◗]
 2529 /3/ [◖ 1 ◗, ◖ 5 =  1 + 1·2^2 ◗, ◖ 79 = -1 + 5·2^4 ◗, ◖ 2529 =  1 + 79·2^5 ◗]
 2531 /4/ [◖ 1 ◗, ◖ 5 =  1 + 1·2^2 ◗, ◖ 79 = -1 + 5·2^4 ◗, ◖ 633 =  1 + 79·2^3 ◗, ◖ 2531 = -1 + 633·2^2 ◗]
 2533 /3/ [◖ 1 ◗, ◖ 5 =  1 + 1·2^2 ◗, ◖ 79 = -1 + 5·2^4 ◗, ◖ 2533 =  5 + 79·2^5 ◗]
 2535 /3/ [◖ 1 ◗, ◖ 5 =  1 + 1·2^2 ◗, ◖ 39 = -1 + 5·2^3 ◗, ◖ 2535 =  39 + 39·2^6 ◗]
 2537 /4/ [◖ 1 ◗, ◖ 5 =  1 + 1·2^2 ◗, ◖ 79 = -1 + 5·2^4 ◗, ◖ 317 =  1 + 79·2^2 ◗, ◖ 2537 =  1 + 317·2^3 ◗]
 2539 /3/ [◖ 1 ◗, ◖ 5 =  1 + 1·2^2 ◗, ◖ 635 = -5 + 5·2^7 ◗, ◖ 2539 = -1 + 635·2^2 ◗]
 2541 /3/ [◖ 1 ◗, ◖ 5 =  1 + 1·2^2 ◗, ◖ 635 = -5 + 5·2^7 ◗, ◖ 2541 =  1 + 635·2^2 ◗]
 2543 /3/ [◖ 1 ◗, ◖ 5 =  1 + 1·2^2 ◗, ◖ 159 = -1 + 5·2^5 ◗, ◖ 2543 = -1 + 159·2^4 ◗]
 2545 /3/ [◖ 1 ◗, ◖ 5 =  1 + 1·2^2 ◗, ◖ 159 = -1 + 5·2^5 ◗, ◖ 2545 =  1 + 159·2^4 ◗]
 2547 /3/ [◖ 1 ◗, ◖ 5 =  1 + 1·2^2 ◗, ◖ 319 = -1 + 5·2^6 ◗, ◖ 2547 = -5 + 319·2^3 ◗]
 2549 /3/ [◖ 1 ◗, ◖ 5 =  1 + 1·2^2 ◗, ◖ 1275 = -5 + 5·2^8 ◗, ◖ 2549 = -1 + 1275·2^1 ◗]
 2551 /3/ [◖ 1 ◗, ◖ 5 =  1 + 1·2^2 ◗, ◖ 319 = -1 + 5·2^6 ◗, ◖ 2551 = -1 + 319·2^3 ◗]
 2553 /3/ [◖ 1 ◗, ◖ 5 =  1 + 1·2^2 ◗, ◖ 319 = -1 + 5·2^6 ◗, ◖ 2553 =  1 + 319·2^3 ◗]
 2555 /2/ [◖ 1 ◗, ◖ 5 =  1 + 1·2^2 ◗, ◖ 2555 = -5 + 5·2^9 ◗]
 2557 /3/ [◖ 1 ◗, ◖ 5 =  1 + 1·2^2 ◗, ◖ 639 = -1 + 5·2^7 ◗, ◖ 2557 =  1 + 639·2^2 ◗]
 2559 /2/ [◖ 1 ◗, ◖ 5 =  1 + 1·2^2 ◗, ◖ 2559 = -1 + 5·2^9 ◗]
".
Definition v2_40 : string := " 2561 /2/ [◖ 1 ◗, ◖ 5 =  1 + 1·2^2 ◗, ◖ 2561 =  1 + 5·2^9 ◗]
 2563 /3/ [◖ 1 ◗, ◖ 5 =  1 + 1·2^2 ◗, ◖ 641 =  1 + 5·2^7 ◗, ◖ 2563 = -1 + 641·2^2 ◗]
 2565 /2/ [◖ 1 ◗, ◖ 5 =  1 + 1·2^2 ◗, ◖ 2565 =  5 + 5·2^9 ◗]
 2567 /3/ [◖ 1 ◗, ◖ 5 =  1 + 1·2^2 ◗, ◖ 321 =  1 + 5·2^6 ◗, ◖ 2567 = -1 + 321·2^3 ◗]
 2569 /3/ [◖ 1 ◗, ◖ 5 =  1 + 1·2^2 ◗, ◖ 321 =  1 + 5·2^6 ◗, ◖ 2569 =  1 + 321·2^3 ◗]
 2571 /3/ [◖ 1 ◗, ◖ 5 =  1 + 1·2^2 ◗, ◖ 1285 =  5 + 5·2^8 ◗, ◖ 2571 =  1 + 1285·2^1 ◗]
 2573 /3/ [◖ 1 ◗, ◖ 5 =  1 + 1·2^2 ◗, ◖ 321 =  1 + 5·2^6 ◗, ◖ 2573 =  5 + 321·2^3 ◗]
 2575 /3/ [◖ 1 ◗, ◖ 5 =  1 + 1·2^2 ◗, ◖ 161 =  1 + 5·2^5 ◗, ◖ 2575 = -1 + 161·2^4 ◗]
 2577 /3/ [◖ 1 ◗, ◖ 5 =  1 + 1·2^2 ◗, ◖ 161 =  1 + 5·2^5 ◗, ◖ 2577 =  1 + 161·2^4 ◗]
 2579 /3/ [◖ 1 ◗, ◖ 5 =  1 + 1·2^2 ◗, ◖ 645 =  5 + 5·2^7 ◗, ◖ 2579 = -1 + 645·2^2 ◗]
 2581 /3/ [◖ 1 ◗, ◖ 5 =  1 + 1·2^2 ◗, ◖ 645 =  5 + 5·2^7 ◗, ◖ 2581 =  1 + 645·2^2 ◗]
 2583 /3/ [◖ 1 ◗, ◖ 5 =  1 + 1·2^2 ◗, ◖ 41 =  1 + 5·2^3 ◗, ◖ 2583 = -41 + 41·2^6 ◗]
 2585 /4/ [◖ 1 ◗, ◖ 5 =  1 + 1·2^2 ◗, ◖ 81 =  1 + 5·2^4 ◗, ◖ 323 = -1 + 81·2^2 ◗, ◖ 2585 =  1 + 323·2^3 ◗]
 2587 /3/ [◖ 1 ◗, ◖ 5 =  1 + 1·2^2 ◗, ◖ 81 =  1 + 5·2^4 ◗, ◖ 2587 = -5 + 81·2^5 ◗]
 2589 /4/ [◖ 1 ◗, ◖ 5 =  1 + 1·2^2 ◗, ◖ 81 =  1 + 5·2^4 ◗, ◖ 647 = -1 + 81·2^3 ◗, ◖ 2589 =  1 + 647·2^2 ◗]
 2591 /3/ [◖ 1 ◗, ◖ 5 =  1 + 1·2^2 ◗, ◖ 81 =  1 + 5·2^4 ◗, ◖ 2591 = -1 + 81·2^5 ◗]
 2593 /3/ [◖ 1 ◗, ◖ 5 =  1 + 1·2^2 ◗, ◖ 81 =  1 + 5·2^4 ◗, ◖ 2593 =  1 + 81·2^5 ◗]
 2595 /3/ [◖ 1 ◗, ◖ 5 =  1 + 1·2^2 ◗, ◖ 325 =  5 + 5·2^6 ◗, ◖ 2595 = -5 + 325·2^3 ◗]
 2597 /3/ [◖ 1 ◗, ◖ 5 =  1 + 1·2^2 ◗, ◖ 81 =  1 + 5·2^4 ◗, ◖ 2597 =  5 + 81·2^5 ◗]
 2599 /3/ [◖ 1 ◗, ◖ 5 =  1 + 1·2^2 ◗, ◖ 325 =  5 + 5·2^6 ◗, ◖ 2599 = -1 + 325·2^3 ◗]
 2601 /3/ [◖ 1 ◗, ◖ 5 =  1 + 1·2^2 ◗, ◖ 325 =  5 + 5·2^6 ◗, ◖ 2601 =  1 + 325·2^3 ◗]
 2603 /4/ [◖ 1 ◗, ◖ 5 =  1 + 1·2^2 ◗, ◖ 325 =  5 + 5·2^6 ◗, ◖ 651 =  1 + 325·2^1 ◗, ◖ 2603 = -1 + 651·2^2 ◗]
 2605 /3/ [◖ 1 ◗, ◖ 5 =  1 + 1·2^2 ◗, ◖ 325 =  5 + 5·2^6 ◗, ◖ 2605 =  5 + 325·2^3 ◗]
 2607 /3/ [◖ 1 ◗, ◖ 5 =  1 + 1·2^2 ◗, ◖ 79 = -1 + 5·2^4 ◗, ◖ 2607 =  79 + 79·2^5 ◗]
 2609 /3/ [◖ 1 ◗, ◖ 17 =  1 + 1·2^4 ◗, ◖ 561 =  17 + 17·2^5 ◗, ◖ 2609 =  561 + 1·2^11 ◗]
 2611 /4/ [◖ 1 ◗, ◖ 5 =  1 + 1·2^2 ◗, ◖ 81 =  1 + 5·2^4 ◗, ◖ 653 =  5 + 81·2^3 ◗, ◖ 2611 = -1 + 653·2^2 ◗]
 2613 /4/ [◖ 1 ◗, ◖ 5 =  1 + 1·2^2 ◗, ◖ 41 =  1 + 5·2^3 ◗, ◖ 1307 = -5 + 41·2^5 ◗, ◖ 2613 = -1 + 1307·2^1 ◗]
 2615 /3/ [◖ 1 ◗, ◖ 9 =  1 + 1·2^3 ◗, ◖ 567 = -9 + 9·2^6 ◗, ◖ 2615 =  567 + 1·2^11 ◗]
 2617 /4/ [◖ 1 ◗, ◖ 5 =  1 + 1·2^2 ◗, ◖ 41 =  1 + 5·2^3 ◗, ◖ 327 = -1 + 41·2^3 ◗, ◖ 2617 =  1 + 327·2^3 ◗]
 2619 /3/ [◖ 1 ◗, ◖ 5 =  1 + 1·2^2 ◗, ◖ 41 =  1 + 5·2^3 ◗, ◖ 2619 = -5 + 41·2^6 ◗]
 2621 /4/ [◖ 1 ◗, ◖ 5 =  1 + 1·2^2 ◗, ◖ 41 =  1 + 5·2^3 ◗, ◖ 655 = -1 + 41·2^4 ◗, ◖ 2621 =  1 + 655·2^2 ◗]
 2623 /3/ [◖ 1 ◗, ◖ 5 =  1 + 1·2^2 ◗, ◖ 41 =  1 + 5·2^3 ◗, ◖ 2623 = -1 + 41·2^6 ◗]
".
Definition v2_41 : string := " 2625 /3/ [◖ 1 ◗, ◖ 5 =  1 + 1·2^2 ◗, ◖ 41 =  1 + 5·2^3 ◗, ◖ 2625 =  1 + 41·2^6 ◗]
 2627 /4/ [◖ 1 ◗, ◖ 5 =  1 + 1·2^2 ◗, ◖ 41 =  1 + 5·2^3 ◗, ◖ 657 =  1 + 41·2^4 ◗, ◖ 2627 = -1 + 657·2^2 ◗]
 2629 /3/ [◖ 1 ◗, ◖ 5 =  1 + 1·2^2 ◗, ◖ 41 =  1 + 5·2^3 ◗, ◖ 2629 =  5 + 41·2^6 ◗]
 2631 /4/ [◖ 1 ◗, ◖ 5 =  1 + 1·2^2 ◗, ◖ 41 =  1 + 5·2^3 ◗, ◖ 329 =  1 + 41·2^3 ◗, ◖ 2631 = -1 + 329·2^3 ◗]
 2633 /3/ [◖ 1 ◗, ◖ 9 =  1 + 1·2^3 ◗, ◖ 585 =  9 + 9·2^6 ◗, ◖ 2633 =  585 + 1·2^11 ◗]
 2635 /3/ [◖ 1 ◗, ◖ 5 =  1 + 1·2^2 ◗, ◖ 165 =  5 + 5·2^5 ◗, ◖ 2635 = -5 + 165·2^4 ◗]
 2637 /4/ [◖ 1 ◗, ◖ 5 =  1 + 1·2^2 ◗, ◖ 165 =  5 + 5·2^5 ◗, ◖ 659 = -1 + 165·2^2 ◗, ◖ 2637 =  1 + 659·2^2 ◗]
 2639 /3/ [◖ 1 ◗, ◖ 5 =  1 + 1·2^2 ◗, ◖ 165 =  5 + 5·2^5 ◗, ◖ 2639 = -1 + 165·2^4 ◗]
 2641 /3/ [◖ 1 ◗, ◖ 5 =  1 + 1·2^2 ◗, ◖ 165 =  5 + 5·2^5 ◗, ◖ 2641 =  1 + 165·2^4 ◗]
 2643 /4/ [◖ 1 ◗, ◖ 5 =  1 + 1·2^2 ◗, ◖ 165 =  5 + 5·2^5 ◗, ◖ 661 =  1 + 165·2^2 ◗, ◖ 2643 = -1 + 661·2^2 ◗]
 2645 /3/ [◖ 1 ◗, ◖ 5 =  1 + 1·2^2 ◗, ◖ 165 =  5 + 5·2^5 ◗, ◖ 2645 =  5 + 165·2^4 ◗]
 2647 /4/ [◖ 1 ◗, ◖ 5 =  1 + 1·2^2 ◗, ◖ 165 =  5 + 5·2^5 ◗, ◖ 331 =  1 + 165·2^1 ◗, ◖ 2647 = -1 + 331·2^3 ◗]
 2649 /4/ [◖ 1 ◗, ◖ 5 =  1 + 1·2^2 ◗, ◖ 165 =  5 + 5·2^5 ◗, ◖ 331 =  1 + 165·2^1 ◗, ◖ 2649 =  1 + 331·2^3 ◗]
 2651 /4/ [◖ 1 ◗, ◖ 5 =  1 + 1·2^2 ◗, ◖ 165 =  5 + 5·2^5 ◗, ◖ 1325 =  5 + 165·2^3 ◗, ◖ 2651 =  1 + 1325·2^1 ◗]
 2653 /4/ [◖ 1 ◗, ◖ 5 =  1 + 1·2^2 ◗, ◖ 39 = -1 + 5·2^3 ◗, ◖ 663 =  39 + 39·2^4 ◗, ◖ 2653 =  1 + 663·2^2 ◗]
 2655 /4/ [◖ 1 ◗, ◖ 5 =  1 + 1·2^2 ◗, ◖ 21 =  1 + 5·2^2 ◗, ◖ 83 = -1 + 21·2^2 ◗, ◖ 2655 = -1 + 83·2^5 ◗]
 2657 /3/ [◖ 1 ◗, ◖ 33 =  1 + 1·2^5 ◗, ◖ 2145 =  33 + 33·2^6 ◗, ◖ 2657 =  2145 + 1·2^9 ◗]
 2659 /4/ [◖ 1 ◗, ◖ 3 =  1 + 1·2^1 ◗, ◖ 95 = -1 + 3·2^5 ◗, ◖ 665 = -95 + 95·2^3 ◗, ◖ 2659 = -1 + 665·2^2 ◗]
 2661 /4/ [◖ 1 ◗, ◖ 3 =  1 + 1·2^1 ◗, ◖ 95 = -1 + 3·2^5 ◗, ◖ 665 = -95 + 95·2^3 ◗, ◖ 2661 =  1 + 665·2^2 ◗]
 2663 /4/ [◖ 1 ◗, ◖ 5 =  1 + 1·2^2 ◗, ◖ 41 =  1 + 5·2^3 ◗, ◖ 333 =  5 + 41·2^3 ◗, ◖ 2663 = -1 + 333·2^3 ◗]
 2665 /3/ [◖ 1 ◗, ◖ 5 =  1 + 1·2^2 ◗, ◖ 41 =  1 + 5·2^3 ◗, ◖ 2665 =  41 + 41·2^6 ◗]
 2667 /3/ [◖ 1 ◗, ◖ 5 =  1 + 1·2^2 ◗, ◖ 21 =  1 + 5·2^2 ◗, ◖ 2667 = -21 + 21·2^7 ◗]
 2669 /4/ [◖ 1 ◗, ◖ 5 =  1 + 1·2^2 ◗, ◖ 21 =  1 + 5·2^2 ◗, ◖ 667 = -5 + 21·2^5 ◗, ◖ 2669 =  1 + 667·2^2 ◗]
 2671 /3/ [◖ 1 ◗, ◖ 17 =  1 + 1·2^4 ◗, ◖ 2159 = -17 + 17·2^7 ◗, ◖ 2671 =  2159 + 1·2^9 ◗]
 2673 /3/ [◖ 1 ◗, ◖ 5 =  1 + 1·2^2 ◗, ◖ 81 =  1 + 5·2^4 ◗, ◖ 2673 =  81 + 81·2^5 ◗]
 2675 /4/ [◖ 1 ◗, ◖ 3 =  1 + 1·2^1 ◗, ◖ 191 = -1 + 3·2^6 ◗, ◖ 1337 = -191 + 191·2^3 ◗, ◖ 2675 =  1 + 1337·2^1 ◗]
 2677 /4/ [◖ 1 ◗, ◖ 5 =  1 + 1·2^2 ◗, ◖ 21 =  1 + 5·2^2 ◗, ◖ 1339 = -5 + 21·2^6 ◗, ◖ 2677 = -1 + 1339·2^1 ◗]
 2679 /4/ [◖ 1 ◗, ◖ 5 =  1 + 1·2^2 ◗, ◖ 21 =  1 + 5·2^2 ◗, ◖ 335 = -1 + 21·2^4 ◗, ◖ 2679 = -1 + 335·2^3 ◗]
 2681 /3/ [◖ 1 ◗, ◖ 3 =  1 + 1·2^1 ◗, ◖ 383 = -1 + 3·2^7 ◗, ◖ 2681 = -383 + 383·2^3 ◗]
 2683 /3/ [◖ 1 ◗, ◖ 5 =  1 + 1·2^2 ◗, ◖ 21 =  1 + 5·2^2 ◗, ◖ 2683 = -5 + 21·2^7 ◗]
 2685 /3/ [◖ 1 ◗, ◖ 7 = -1 + 1·2^3 ◗, ◖ 895 = -1 + 7·2^7 ◗, ◖ 2685 =  895 + 895·2^1 ◗]
 2687 /3/ [◖ 1 ◗, ◖ 5 =  1 + 1·2^2 ◗, ◖ 21 =  1 + 5·2^2 ◗, ◖ 2687 = -1 + 21·2^7 ◗]
".
Definition v2_42 : string := " 2689 /3/ [◖ 1 ◗, ◖ 5 =  1 + 1·2^2 ◗, ◖ 21 =  1 + 5·2^2 ◗, ◖ 2689 =  1 + 21·2^7 ◗]
 2691 /3/ [◖ 1 ◗, ◖ 7 = -1 + 1·2^3 ◗, ◖ 897 =  1 + 7·2^7 ◗, ◖ 2691 =  897 + 897·2^1 ◗]
 2693 /3/ [◖ 1 ◗, ◖ 5 =  1 + 1·2^2 ◗, ◖ 21 =  1 + 5·2^2 ◗, ◖ 2693 =  5 + 21·2^7 ◗]
 2695 /3/ [◖ 1 ◗, ◖ 3 =  1 + 1·2^1 ◗, ◖ 385 =  1 + 3·2^7 ◗, ◖ 2695 = -385 + 385·2^3 ◗]
 2697 /4/ [◖ 1 ◗, ◖ 5 =  1 + 1·2^2 ◗, ◖ 21 =  1 + 5·2^2 ◗, ◖ 337 =  1 + 21·2^4 ◗, ◖ 2697 =  1 + 337·2^3 ◗]
 2699 /4/ [◖ 1 ◗, ◖ 5 =  1 + 1·2^2 ◗, ◖ 21 =  1 + 5·2^2 ◗, ◖ 1349 =  5 + 21·2^6 ◗, ◖ 2699 =  1 + 1349·2^1 ◗]
 2701 /4/ [◖ 1 ◗, ◖ 5 =  1 + 1·2^2 ◗, ◖ 85 =  5 + 5·2^4 ◗, ◖ 675 = -5 + 85·2^3 ◗, ◖ 2701 =  1 + 675·2^2 ◗]
 2703 /3/ [◖ 1 ◗, ◖ 5 =  1 + 1·2^2 ◗, ◖ 159 = -1 + 5·2^5 ◗, ◖ 2703 =  159 + 159·2^4 ◗]
 2705 /3/ [◖ 1 ◗, ◖ 17 =  1 + 1·2^4 ◗, ◖ 2193 =  17 + 17·2^7 ◗, ◖ 2705 =  2193 + 1·2^9 ◗]
 2707 /4/ [◖ 1 ◗, ◖ 5 =  1 + 1·2^2 ◗, ◖ 21 =  1 + 5·2^2 ◗, ◖ 677 =  5 + 21·2^5 ◗, ◖ 2707 = -1 + 677·2^2 ◗]
 2709 /3/ [◖ 1 ◗, ◖ 5 =  1 + 1·2^2 ◗, ◖ 21 =  1 + 5·2^2 ◗, ◖ 2709 =  21 + 21·2^7 ◗]
 2711 /4/ [◖ 1 ◗, ◖ 5 =  1 + 1·2^2 ◗, ◖ 85 =  5 + 5·2^4 ◗, ◖ 339 = -1 + 85·2^2 ◗, ◖ 2711 = -1 + 339·2^3 ◗]
 2713 /4/ [◖ 1 ◗, ◖ 5 =  1 + 1·2^2 ◗, ◖ 85 =  5 + 5·2^4 ◗, ◖ 339 = -1 + 85·2^2 ◗, ◖ 2713 =  1 + 339·2^3 ◗]
 2715 /3/ [◖ 1 ◗, ◖ 5 =  1 + 1·2^2 ◗, ◖ 85 =  5 + 5·2^4 ◗, ◖ 2715 = -5 + 85·2^5 ◗]
 2717 /4/ [◖ 1 ◗, ◖ 5 =  1 + 1·2^2 ◗, ◖ 85 =  5 + 5·2^4 ◗, ◖ 679 = -1 + 85·2^3 ◗, ◖ 2717 =  1 + 679·2^2 ◗]
 2719 /3/ [◖ 1 ◗, ◖ 5 =  1 + 1·2^2 ◗, ◖ 85 =  5 + 5·2^4 ◗, ◖ 2719 = -1 + 85·2^5 ◗]
 2721 /3/ [◖ 1 ◗, ◖ 5 =  1 + 1·2^2 ◗, ◖ 85 =  5 + 5·2^4 ◗, ◖ 2721 =  1 + 85·2^5 ◗]
 2723 /4/ [◖ 1 ◗, ◖ 5 =  1 + 1·2^2 ◗, ◖ 85 =  5 + 5·2^4 ◗, ◖ 681 =  1 + 85·2^3 ◗, ◖ 2723 = -1 + 681·2^2 ◗]
 2725 /3/ [◖ 1 ◗, ◖ 5 =  1 + 1·2^2 ◗, ◖ 85 =  5 + 5·2^4 ◗, ◖ 2725 =  5 + 85·2^5 ◗]
 2727 /4/ [◖ 1 ◗, ◖ 5 =  1 + 1·2^2 ◗, ◖ 85 =  5 + 5·2^4 ◗, ◖ 341 =  1 + 85·2^2 ◗, ◖ 2727 = -1 + 341·2^3 ◗]
 2729 /4/ [◖ 1 ◗, ◖ 5 =  1 + 1·2^2 ◗, ◖ 85 =  5 + 5·2^4 ◗, ◖ 341 =  1 + 85·2^2 ◗, ◖ 2729 =  1 + 341·2^3 ◗]
 2731 /4/ [◖ 1 ◗, ◖ 5 =  1 + 1·2^2 ◗, ◖ 85 =  5 + 5·2^4 ◗, ◖ 1365 =  5 + 85·2^4 ◗, ◖ 2731 =  1 + 1365·2^1 ◗]
 2733 /4/ [◖ 1 ◗, ◖ 5 =  1 + 1·2^2 ◗, ◖ 85 =  5 + 5·2^4 ◗, ◖ 341 =  1 + 85·2^2 ◗, ◖ 2733 =  5 + 341·2^3 ◗]
 2735 /4/ [◖ 1 ◗, ◖ 5 =  1 + 1·2^2 ◗, ◖ 85 =  5 + 5·2^4 ◗, ◖ 171 =  1 + 85·2^1 ◗, ◖ 2735 = -1 + 171·2^4 ◗]
 2737 /3/ [◖ 1 ◗, ◖ 5 =  1 + 1·2^2 ◗, ◖ 161 =  1 + 5·2^5 ◗, ◖ 2737 =  161 + 161·2^4 ◗]
 2739 /4/ [◖ 1 ◗, ◖ 5 =  1 + 1·2^2 ◗, ◖ 85 =  5 + 5·2^4 ◗, ◖ 685 =  5 + 85·2^3 ◗, ◖ 2739 = -1 + 685·2^2 ◗]
 2741 /4/ [◖ 1 ◗, ◖ 5 =  1 + 1·2^2 ◗, ◖ 85 =  5 + 5·2^4 ◗, ◖ 685 =  5 + 85·2^3 ◗, ◖ 2741 =  1 + 685·2^2 ◗]
 2743 /4/ [◖ 1 ◗, ◖ 3 =  1 + 1·2^1 ◗, ◖ 49 =  1 + 3·2^4 ◗, ◖ 343 = -49 + 49·2^3 ◗, ◖ 2743 = -1 + 343·2^3 ◗]
 2745 /4/ [◖ 1 ◗, ◖ 3 =  1 + 1·2^1 ◗, ◖ 49 =  1 + 3·2^4 ◗, ◖ 343 = -49 + 49·2^3 ◗, ◖ 2745 =  1 + 343·2^3 ◗]
 2747 /4/ [◖ 1 ◗, ◖ 3 =  1 + 1·2^1 ◗, ◖ 49 =  1 + 3·2^4 ◗, ◖ 343 = -49 + 49·2^3 ◗, ◖ 2747 =  3 + 343·2^3 ◗]
 2749 /4/ [◖ 1 ◗, ◖ 3 =  1 + 1·2^1 ◗, ◖ 11 = -1 + 3·2^2 ◗, ◖ 43 = -1 + 11·2^2 ◗, ◖ 2749 = -3 + 43·2^6 ◗]
 2751 /4/ [◖ 1 ◗, ◖ 3 =  1 + 1·2^1 ◗, ◖ 11 = -1 + 3·2^2 ◗, ◖ 43 = -1 + 11·2^2 ◗, ◖ 2751 = -1 + 43·2^6 ◗]
".
Definition v2_43 : string := " 2753 /4/ [◖ 1 ◗, ◖ 3 =  1 + 1·2^1 ◗, ◖ 11 = -1 + 3·2^2 ◗, ◖ 43 = -1 + 11·2^2 ◗, ◖ 2753 =  1 + 43·2^6 ◗]
 2755 /4/ [◖ 1 ◗, ◖ 17 =  1 + 1·2^4 ◗, ◖ 561 =  17 + 17·2^5 ◗, ◖ 689 =  561 + 1·2^7 ◗, ◖ 2755 = -1 + 689·2^2 ◗]
 2757 /4/ [◖ 1 ◗, ◖ 17 =  1 + 1·2^4 ◗, ◖ 561 =  17 + 17·2^5 ◗, ◖ 689 =  561 + 1·2^7 ◗, ◖ 2757 =  1 + 689·2^2 ◗]
 2759 /4/ [◖ 1 ◗, ◖ 7 = -1 + 1·2^3 ◗, ◖ 217 = -7 + 7·2^5 ◗, ◖ 345 =  217 + 1·2^7 ◗, ◖ 2759 = -1 + 345·2^3 ◗]
 2761 /4/ [◖ 1 ◗, ◖ 7 = -1 + 1·2^3 ◗, ◖ 217 = -7 + 7·2^5 ◗, ◖ 345 =  217 + 1·2^7 ◗, ◖ 2761 =  1 + 345·2^3 ◗]
 2763 /4/ [◖ 1 ◗, ◖ 3 =  1 + 1·2^1 ◗, ◖ 11 = -1 + 3·2^2 ◗, ◖ 43 = -1 + 11·2^2 ◗, ◖ 2763 =  11 + 43·2^6 ◗]
 2765 /4/ [◖ 1 ◗, ◖ 3 =  1 + 1·2^1 ◗, ◖ 11 = -1 + 3·2^2 ◗, ◖ 173 = -3 + 11·2^4 ◗, ◖ 2765 = -3 + 173·2^4 ◗]
 2767 /4/ [◖ 1 ◗, ◖ 3 =  1 + 1·2^1 ◗, ◖ 11 = -1 + 3·2^2 ◗, ◖ 173 = -3 + 11·2^4 ◗, ◖ 2767 = -1 + 173·2^4 ◗]
 2769 /4/ [◖ 1 ◗, ◖ 3 =  1 + 1·2^1 ◗, ◖ 11 = -1 + 3·2^2 ◗, ◖ 173 = -3 + 11·2^4 ◗, ◖ 2769 =  1 + 173·2^4 ◗]
 2771 /4/ [◖ 1 ◗, ◖ 3 =  1 + 1·2^1 ◗, ◖ 11 = -1 + 3·2^2 ◗, ◖ 693 = -11 + 11·2^6 ◗, ◖ 2771 = -1 + 693·2^2 ◗]
 2773 /4/ [◖ 1 ◗, ◖ 3 =  1 + 1·2^1 ◗, ◖ 11 = -1 + 3·2^2 ◗, ◖ 693 = -11 + 11·2^6 ◗, ◖ 2773 =  1 + 693·2^2 ◗]
 2775 /4/ [◖ 1 ◗, ◖ 5 =  1 + 1·2^2 ◗, ◖ 165 =  5 + 5·2^5 ◗, ◖ 347 = -165 + 1·2^9 ◗, ◖ 2775 = -1 + 347·2^3 ◗]
 2777 /4/ [◖ 1 ◗, ◖ 5 =  1 + 1·2^2 ◗, ◖ 165 =  5 + 5·2^5 ◗, ◖ 347 = -165 + 1·2^9 ◗, ◖ 2777 =  1 + 347·2^3 ◗]
 2779 /4/ [◖ 1 ◗, ◖ 9 =  1 + 1·2^3 ◗, ◖ 567 = -9 + 9·2^6 ◗, ◖ 695 =  567 + 1·2^7 ◗, ◖ 2779 = -1 + 695·2^2 ◗]
 2781 /4/ [◖ 1 ◗, ◖ 9 =  1 + 1·2^3 ◗, ◖ 567 = -9 + 9·2^6 ◗, ◖ 695 =  567 + 1·2^7 ◗, ◖ 2781 =  1 + 695·2^2 ◗]
 2783 /4/ [◖ 1 ◗, ◖ 3 =  1 + 1·2^1 ◗, ◖ 11 = -1 + 3·2^2 ◗, ◖ 87 = -1 + 11·2^3 ◗, ◖ 2783 = -1 + 87·2^5 ◗]
 2785 /4/ [◖ 1 ◗, ◖ 3 =  1 + 1·2^1 ◗, ◖ 11 = -1 + 3·2^2 ◗, ◖ 87 = -1 + 11·2^3 ◗, ◖ 2785 =  1 + 87·2^5 ◗]
 2787 /4/ [◖ 1 ◗, ◖ 5 =  1 + 1·2^2 ◗, ◖ 41 =  1 + 5·2^3 ◗, ◖ 697 =  41 + 41·2^4 ◗, ◖ 2787 = -1 + 697·2^2 ◗]
 2789 /4/ [◖ 1 ◗, ◖ 5 =  1 + 1·2^2 ◗, ◖ 41 =  1 + 5·2^3 ◗, ◖ 697 =  41 + 41·2^4 ◗, ◖ 2789 =  1 + 697·2^2 ◗]
 2791 /4/ [◖ 1 ◗, ◖ 3 =  1 + 1·2^1 ◗, ◖ 11 = -1 + 3·2^2 ◗, ◖ 349 = -3 + 11·2^5 ◗, ◖ 2791 = -1 + 349·2^3 ◗]
 2793 /4/ [◖ 1 ◗, ◖ 3 =  1 + 1·2^1 ◗, ◖ 11 = -1 + 3·2^2 ◗, ◖ 349 = -3 + 11·2^5 ◗, ◖ 2793 =  1 + 349·2^3 ◗]
 2795 /4/ [◖ 1 ◗, ◖ 3 =  1 + 1·2^1 ◗, ◖ 11 = -1 + 3·2^2 ◗, ◖ 1397 = -11 + 11·2^7 ◗, ◖ 2795 =  1 + 1397·2^1 ◗]
 2797 /4/ [◖ 1 ◗, ◖ 5 =  1 + 1·2^2 ◗, ◖ 325 =  5 + 5·2^6 ◗, ◖ 699 = -325 + 1·2^10 ◗, ◖ 2797 =  1 + 699·2^2 ◗]
 2799 /4/ [◖ 1 ◗, ◖ 3 =  1 + 1·2^1 ◗, ◖ 11 = -1 + 3·2^2 ◗, ◖ 175 = -1 + 11·2^4 ◗, ◖ 2799 = -1 + 175·2^4 ◗]
 2801 /3/ [◖ 1 ◗, ◖ 15 = -1 + 1·2^4 ◗, ◖ 3825 = -15 + 15·2^8 ◗, ◖ 2801 =  3825 - 1·2^10 ◗]
 2803 /4/ [◖ 1 ◗, ◖ 3 =  1 + 1·2^1 ◗, ◖ 11 = -1 + 3·2^2 ◗, ◖ 701 = -3 + 11·2^6 ◗, ◖ 2803 = -1 + 701·2^2 ◗]
 2805 /3/ [◖ 1 ◗, ◖ 3 =  1 + 1·2^1 ◗, ◖ 11 = -1 + 3·2^2 ◗, ◖ 2805 = -11 + 11·2^8 ◗]
 2807 /3/ [◖ 1 ◗, ◖ 9 =  1 + 1·2^3 ◗, ◖ 2295 = -9 + 9·2^8 ◗, ◖ 2807 =  2295 + 1·2^9 ◗]
 2809 /3/ [◖ 1 ◗, ◖ 7 = -1 + 1·2^3 ◗, ◖ 1785 = -7 + 7·2^8 ◗, ◖ 2809 =  1785 + 1·2^10 ◗]
 2811 /3/ [◖ 1 ◗, ◖ 5 =  1 + 1·2^2 ◗, ◖ 1285 =  5 + 5·2^8 ◗, ◖ 2811 = -1285 + 1·2^12 ◗]
 2813 /3/ [◖ 1 ◗, ◖ 3 =  1 + 1·2^1 ◗, ◖ 11 = -1 + 3·2^2 ◗, ◖ 2813 = -3 + 11·2^8 ◗]
 2815 /3/ [◖ 1 ◗, ◖ 3 =  1 + 1·2^1 ◗, ◖ 11 = -1 + 3·2^2 ◗, ◖ 2815 = -1 + 11·2^8 ◗]
".
Definition v2_44 : string := " 2817 /3/ [◖ 1 ◗, ◖ 3 =  1 + 1·2^1 ◗, ◖ 11 = -1 + 3·2^2 ◗, ◖ 2817 =  1 + 11·2^8 ◗]
 2819 /3/ [◖ 1 ◗, ◖ 3 =  1 + 1·2^1 ◗, ◖ 11 = -1 + 3·2^2 ◗, ◖ 2819 =  3 + 11·2^8 ◗]
 2821 /3/ [◖ 1 ◗, ◖ 5 =  1 + 1·2^2 ◗, ◖ 1275 = -5 + 5·2^8 ◗, ◖ 2821 = -1275 + 1·2^12 ◗]
 2823 /3/ [◖ 1 ◗, ◖ 7 = -1 + 1·2^3 ◗, ◖ 1799 =  7 + 7·2^8 ◗, ◖ 2823 =  1799 + 1·2^10 ◗]
 2825 /3/ [◖ 1 ◗, ◖ 9 =  1 + 1·2^3 ◗, ◖ 2313 =  9 + 9·2^8 ◗, ◖ 2825 =  2313 + 1·2^9 ◗]
 2827 /3/ [◖ 1 ◗, ◖ 3 =  1 + 1·2^1 ◗, ◖ 11 = -1 + 3·2^2 ◗, ◖ 2827 =  11 + 11·2^8 ◗]
 2829 /4/ [◖ 1 ◗, ◖ 3 =  1 + 1·2^1 ◗, ◖ 11 = -1 + 3·2^2 ◗, ◖ 707 =  3 + 11·2^6 ◗, ◖ 2829 =  1 + 707·2^2 ◗]
 2831 /3/ [◖ 1 ◗, ◖ 15 = -1 + 1·2^4 ◗, ◖ 3855 =  15 + 15·2^8 ◗, ◖ 2831 =  3855 - 1·2^10 ◗]
 2833 /4/ [◖ 1 ◗, ◖ 3 =  1 + 1·2^1 ◗, ◖ 11 = -1 + 3·2^2 ◗, ◖ 177 =  1 + 11·2^4 ◗, ◖ 2833 =  1 + 177·2^4 ◗]
 2835 /3/ [◖ 1 ◗, ◖ 3 =  1 + 1·2^1 ◗, ◖ 45 = -3 + 3·2^4 ◗, ◖ 2835 = -45 + 45·2^6 ◗]
 2837 /4/ [◖ 1 ◗, ◖ 3 =  1 + 1·2^1 ◗, ◖ 11 = -1 + 3·2^2 ◗, ◖ 1419 =  11 + 11·2^7 ◗, ◖ 2837 = -1 + 1419·2^1 ◗]
 2839 /4/ [◖ 1 ◗, ◖ 3 =  1 + 1·2^1 ◗, ◖ 11 = -1 + 3·2^2 ◗, ◖ 355 =  3 + 11·2^5 ◗, ◖ 2839 = -1 + 355·2^3 ◗]
 2841 /4/ [◖ 1 ◗, ◖ 3 =  1 + 1·2^1 ◗, ◖ 11 = -1 + 3·2^2 ◗, ◖ 355 =  3 + 11·2^5 ◗, ◖ 2841 =  1 + 355·2^3 ◗]
 2843 /4/ [◖ 1 ◗, ◖ 5 =  1 + 1·2^2 ◗, ◖ 79 = -1 + 5·2^4 ◗, ◖ 711 =  79 + 79·2^3 ◗, ◖ 2843 = -1 + 711·2^2 ◗]
 2845 /4/ [◖ 1 ◗, ◖ 5 =  1 + 1·2^2 ◗, ◖ 79 = -1 + 5·2^4 ◗, ◖ 711 =  79 + 79·2^3 ◗, ◖ 2845 =  1 + 711·2^2 ◗]
 2847 /4/ [◖ 1 ◗, ◖ 3 =  1 + 1·2^1 ◗, ◖ 11 = -1 + 3·2^2 ◗, ◖ 89 =  1 + 11·2^3 ◗, ◖ 2847 = -1 + 89·2^5 ◗]
 2849 /4/ [◖ 1 ◗, ◖ 3 =  1 + 1·2^1 ◗, ◖ 11 = -1 + 3·2^2 ◗, ◖ 89 =  1 + 11·2^3 ◗, ◖ 2849 =  1 + 89·2^5 ◗]
 2851 /4/ [◖ 1 ◗, ◖ 3 =  1 + 1·2^1 ◗, ◖ 23 = -1 + 3·2^3 ◗, ◖ 713 = -23 + 23·2^5 ◗, ◖ 2851 = -1 + 713·2^2 ◗]
 2853 /4/ [◖ 1 ◗, ◖ 3 =  1 + 1·2^1 ◗, ◖ 23 = -1 + 3·2^3 ◗, ◖ 713 = -23 + 23·2^5 ◗, ◖ 2853 =  1 + 713·2^2 ◗]
 2855 /4/ [◖ 1 ◗, ◖ 3 =  1 + 1·2^1 ◗, ◖ 45 = -3 + 3·2^4 ◗, ◖ 357 = -3 + 45·2^3 ◗, ◖ 2855 = -1 + 357·2^3 ◗]
 2857 /4/ [◖ 1 ◗, ◖ 3 =  1 + 1·2^1 ◗, ◖ 45 = -3 + 3·2^4 ◗, ◖ 357 = -3 + 45·2^3 ◗, ◖ 2857 =  1 + 357·2^3 ◗]
 2859 /4/ [◖ 1 ◗, ◖ 3 =  1 + 1·2^1 ◗, ◖ 11 = -1 + 3·2^2 ◗, ◖ 715 =  11 + 11·2^6 ◗, ◖ 2859 = -1 + 715·2^2 ◗]
 2861 /4/ [◖ 1 ◗, ◖ 3 =  1 + 1·2^1 ◗, ◖ 11 = -1 + 3·2^2 ◗, ◖ 715 =  11 + 11·2^6 ◗, ◖ 2861 =  1 + 715·2^2 ◗]
 2863 /4/ [◖ 1 ◗, ◖ 3 =  1 + 1·2^1 ◗, ◖ 45 = -3 + 3·2^4 ◗, ◖ 179 = -1 + 45·2^2 ◗, ◖ 2863 = -1 + 179·2^4 ◗]
 2865 /3/ [◖ 1 ◗, ◖ 3 =  1 + 1·2^1 ◗, ◖ 191 = -1 + 3·2^6 ◗, ◖ 2865 = -191 + 191·2^4 ◗]
 2867 /4/ [◖ 1 ◗, ◖ 3 =  1 + 1·2^1 ◗, ◖ 45 = -3 + 3·2^4 ◗, ◖ 717 = -3 + 45·2^4 ◗, ◖ 2867 = -1 + 717·2^2 ◗]
 2869 /4/ [◖ 1 ◗, ◖ 3 =  1 + 1·2^1 ◗, ◖ 45 = -3 + 3·2^4 ◗, ◖ 717 = -3 + 45·2^4 ◗, ◖ 2869 =  1 + 717·2^2 ◗]
 2871 /3/ [◖ 1 ◗, ◖ 5 =  1 + 1·2^2 ◗, ◖ 319 = -1 + 5·2^6 ◗, ◖ 2871 =  319 + 319·2^3 ◗]
 2873 /4/ [◖ 1 ◗, ◖ 3 =  1 + 1·2^1 ◗, ◖ 45 = -3 + 3·2^4 ◗, ◖ 359 = -1 + 45·2^3 ◗, ◖ 2873 =  1 + 359·2^3 ◗]
 2875 /3/ [◖ 1 ◗, ◖ 9 =  1 + 1·2^3 ◗, ◖ 575 = -1 + 9·2^6 ◗, ◖ 2875 =  575 + 575·2^2 ◗]
 2877 /3/ [◖ 1 ◗, ◖ 3 =  1 + 1·2^1 ◗, ◖ 45 = -3 + 3·2^4 ◗, ◖ 2877 = -3 + 45·2^6 ◗]
 2879 /3/ [◖ 1 ◗, ◖ 3 =  1 + 1·2^1 ◗, ◖ 45 = -3 + 3·2^4 ◗, ◖ 2879 = -1 + 45·2^6 ◗]
".
Definition v2_45 : string := " 2881 /3/ [◖ 1 ◗, ◖ 3 =  1 + 1·2^1 ◗, ◖ 45 = -3 + 3·2^4 ◗, ◖ 2881 =  1 + 45·2^6 ◗]
 2883 /3/ [◖ 1 ◗, ◖ 3 =  1 + 1·2^1 ◗, ◖ 45 = -3 + 3·2^4 ◗, ◖ 2883 =  3 + 45·2^6 ◗]
 2885 /3/ [◖ 1 ◗, ◖ 9 =  1 + 1·2^3 ◗, ◖ 577 =  1 + 9·2^6 ◗, ◖ 2885 =  577 + 577·2^2 ◗]
 2887 /4/ [◖ 1 ◗, ◖ 3 =  1 + 1·2^1 ◗, ◖ 45 = -3 + 3·2^4 ◗, ◖ 361 =  1 + 45·2^3 ◗, ◖ 2887 = -1 + 361·2^3 ◗]
 2889 /3/ [◖ 1 ◗, ◖ 5 =  1 + 1·2^2 ◗, ◖ 321 =  1 + 5·2^6 ◗, ◖ 2889 =  321 + 321·2^3 ◗]
 2891 /4/ [◖ 1 ◗, ◖ 3 =  1 + 1·2^1 ◗, ◖ 45 = -3 + 3·2^4 ◗, ◖ 723 =  3 + 45·2^4 ◗, ◖ 2891 = -1 + 723·2^2 ◗]
 2893 /4/ [◖ 1 ◗, ◖ 3 =  1 + 1·2^1 ◗, ◖ 45 = -3 + 3·2^4 ◗, ◖ 723 =  3 + 45·2^4 ◗, ◖ 2893 =  1 + 723·2^2 ◗]
 2895 /3/ [◖ 1 ◗, ◖ 3 =  1 + 1·2^1 ◗, ◖ 193 =  1 + 3·2^6 ◗, ◖ 2895 = -193 + 193·2^4 ◗]
 2897 /4/ [◖ 1 ◗, ◖ 3 =  1 + 1·2^1 ◗, ◖ 45 = -3 + 3·2^4 ◗, ◖ 181 =  1 + 45·2^2 ◗, ◖ 2897 =  1 + 181·2^4 ◗]
 2899 /4/ [◖ 1 ◗, ◖ 3 =  1 + 1·2^1 ◗, ◖ 23 = -1 + 3·2^3 ◗, ◖ 1449 = -23 + 23·2^6 ◗, ◖ 2899 =  1 + 1449·2^1 ◗]
 2901 /4/ [◖ 1 ◗, ◖ 9 =  1 + 1·2^3 ◗, ◖ 145 =  1 + 9·2^4 ◗, ◖ 725 =  145 + 145·2^2 ◗, ◖ 2901 =  1 + 725·2^2 ◗]
 2903 /4/ [◖ 1 ◗, ◖ 3 =  1 + 1·2^1 ◗, ◖ 45 = -3 + 3·2^4 ◗, ◖ 363 =  3 + 45·2^3 ◗, ◖ 2903 = -1 + 363·2^3 ◗]
 2905 /4/ [◖ 1 ◗, ◖ 3 =  1 + 1·2^1 ◗, ◖ 45 = -3 + 3·2^4 ◗, ◖ 363 =  3 + 45·2^3 ◗, ◖ 2905 =  1 + 363·2^3 ◗]
 2907 /4/ [◖ 1 ◗, ◖ 9 =  1 + 1·2^3 ◗, ◖ 297 =  9 + 9·2^5 ◗, ◖ 727 = -297 + 1·2^10 ◗, ◖ 2907 = -1 + 727·2^2 ◗]
 2909 /4/ [◖ 1 ◗, ◖ 3 =  1 + 1·2^1 ◗, ◖ 97 =  1 + 3·2^5 ◗, ◖ 1455 = -97 + 97·2^4 ◗, ◖ 2909 = -1 + 1455·2^1 ◗]
 2911 /4/ [◖ 1 ◗, ◖ 3 =  1 + 1·2^1 ◗, ◖ 23 = -1 + 3·2^3 ◗, ◖ 91 = -1 + 23·2^2 ◗, ◖ 2911 = -1 + 91·2^5 ◗]
 2913 /3/ [◖ 1 ◗, ◖ 31 = -1 + 1·2^5 ◗, ◖ 3937 = -31 + 31·2^7 ◗, ◖ 2913 =  3937 - 1·2^10 ◗]
 2915 /4/ [◖ 1 ◗, ◖ 5 =  1 + 1·2^2 ◗, ◖ 81 =  1 + 5·2^4 ◗, ◖ 729 =  81 + 81·2^3 ◗, ◖ 2915 = -1 + 729·2^2 ◗]
 2917 /4/ [◖ 1 ◗, ◖ 5 =  1 + 1·2^2 ◗, ◖ 81 =  1 + 5·2^4 ◗, ◖ 729 =  81 + 81·2^3 ◗, ◖ 2917 =  1 + 729·2^2 ◗]
 2919 /4/ [◖ 1 ◗, ◖ 3 =  1 + 1·2^1 ◗, ◖ 23 = -1 + 3·2^3 ◗, ◖ 365 = -3 + 23·2^4 ◗, ◖ 2919 = -1 + 365·2^3 ◗]
 2921 /3/ [◖ 1 ◗, ◖ 3 =  1 + 1·2^1 ◗, ◖ 23 = -1 + 3·2^3 ◗, ◖ 2921 = -23 + 23·2^7 ◗]
 2923 /4/ [◖ 1 ◗, ◖ 3 =  1 + 1·2^1 ◗, ◖ 23 = -1 + 3·2^3 ◗, ◖ 365 = -3 + 23·2^4 ◗, ◖ 2923 =  3 + 365·2^3 ◗]
 2925 /3/ [◖ 1 ◗, ◖ 3 =  1 + 1·2^1 ◗, ◖ 45 = -3 + 3·2^4 ◗, ◖ 2925 =  45 + 45·2^6 ◗]
 2927 /4/ [◖ 1 ◗, ◖ 3 =  1 + 1·2^1 ◗, ◖ 23 = -1 + 3·2^3 ◗, ◖ 183 = -1 + 23·2^3 ◗, ◖ 2927 = -1 + 183·2^4 ◗]
 2929 /3/ [◖ 1 ◗, ◖ 15 = -1 + 1·2^4 ◗, ◖ 1905 = -15 + 15·2^7 ◗, ◖ 2929 =  1905 + 1·2^10 ◗]
 2931 /4/ [◖ 1 ◗, ◖ 3 =  1 + 1·2^1 ◗, ◖ 23 = -1 + 3·2^3 ◗, ◖ 733 = -3 + 23·2^5 ◗, ◖ 2931 = -1 + 733·2^2 ◗]
 2933 /4/ [◖ 1 ◗, ◖ 3 =  1 + 1·2^1 ◗, ◖ 23 = -1 + 3·2^3 ◗, ◖ 733 = -3 + 23·2^5 ◗, ◖ 2933 =  1 + 733·2^2 ◗]
 2935 /3/ [◖ 1 ◗, ◖ 9 =  1 + 1·2^3 ◗, ◖ 1161 =  9 + 9·2^7 ◗, ◖ 2935 = -1161 + 1·2^12 ◗]
 2937 /3/ [◖ 1 ◗, ◖ 7 = -1 + 1·2^3 ◗, ◖ 889 = -7 + 7·2^7 ◗, ◖ 2937 =  889 + 1·2^11 ◗]
 2939 /4/ [◖ 1 ◗, ◖ 3 =  1 + 1·2^1 ◗, ◖ 23 = -1 + 3·2^3 ◗, ◖ 735 = -1 + 23·2^5 ◗, ◖ 2939 = -1 + 735·2^2 ◗]
 2941 /3/ [◖ 1 ◗, ◖ 3 =  1 + 1·2^1 ◗, ◖ 23 = -1 + 3·2^3 ◗, ◖ 2941 = -3 + 23·2^7 ◗]
 2943 /3/ [◖ 1 ◗, ◖ 3 =  1 + 1·2^1 ◗, ◖ 23 = -1 + 3·2^3 ◗, ◖ 2943 = -1 + 23·2^7 ◗]
".
Definition v2_46 : string := " 2945 /3/ [◖ 1 ◗, ◖ 3 =  1 + 1·2^1 ◗, ◖ 23 = -1 + 3·2^3 ◗, ◖ 2945 =  1 + 23·2^7 ◗]
 2947 /3/ [◖ 1 ◗, ◖ 3 =  1 + 1·2^1 ◗, ◖ 23 = -1 + 3·2^3 ◗, ◖ 2947 =  3 + 23·2^7 ◗]
 2949 /4/ [◖ 1 ◗, ◖ 3 =  1 + 1·2^1 ◗, ◖ 23 = -1 + 3·2^3 ◗, ◖ 737 =  1 + 23·2^5 ◗, ◖ 2949 =  1 + 737·2^2 ◗]
 2951 /3/ [◖ 1 ◗, ◖ 7 = -1 + 1·2^3 ◗, ◖ 903 =  7 + 7·2^7 ◗, ◖ 2951 =  903 + 1·2^11 ◗]
 2953 /3/ [◖ 1 ◗, ◖ 9 =  1 + 1·2^3 ◗, ◖ 1143 = -9 + 9·2^7 ◗, ◖ 2953 = -1143 + 1·2^12 ◗]
 2955 /4/ [◖ 1 ◗, ◖ 3 =  1 + 1·2^1 ◗, ◖ 23 = -1 + 3·2^3 ◗, ◖ 739 =  3 + 23·2^5 ◗, ◖ 2955 = -1 + 739·2^2 ◗]
 2957 /4/ [◖ 1 ◗, ◖ 3 =  1 + 1·2^1 ◗, ◖ 23 = -1 + 3·2^3 ◗, ◖ 739 =  3 + 23·2^5 ◗, ◖ 2957 =  1 + 739·2^2 ◗]
 2959 /3/ [◖ 1 ◗, ◖ 15 = -1 + 1·2^4 ◗, ◖ 1935 =  15 + 15·2^7 ◗, ◖ 2959 =  1935 + 1·2^10 ◗]
 2961 /3/ [◖ 1 ◗, ◖ 3 =  1 + 1·2^1 ◗, ◖ 47 = -1 + 3·2^4 ◗, ◖ 2961 = -47 + 47·2^6 ◗]
 2963 /4/ [◖ 1 ◗, ◖ 3 =  1 + 1·2^1 ◗, ◖ 93 = -3 + 3·2^5 ◗, ◖ 741 = -3 + 93·2^3 ◗, ◖ 2963 = -1 + 741·2^2 ◗]
 2965 /4/ [◖ 1 ◗, ◖ 3 =  1 + 1·2^1 ◗, ◖ 93 = -3 + 3·2^5 ◗, ◖ 741 = -3 + 93·2^3 ◗, ◖ 2965 =  1 + 741·2^2 ◗]
 2967 /3/ [◖ 1 ◗, ◖ 3 =  1 + 1·2^1 ◗, ◖ 23 = -1 + 3·2^3 ◗, ◖ 2967 =  23 + 23·2^7 ◗]
 2969 /4/ [◖ 1 ◗, ◖ 3 =  1 + 1·2^1 ◗, ◖ 93 = -3 + 3·2^5 ◗, ◖ 371 = -1 + 93·2^2 ◗, ◖ 2969 =  1 + 371·2^3 ◗]
 2971 /4/ [◖ 1 ◗, ◖ 3 =  1 + 1·2^1 ◗, ◖ 93 = -3 + 3·2^5 ◗, ◖ 743 = -1 + 93·2^3 ◗, ◖ 2971 = -1 + 743·2^2 ◗]
 2973 /3/ [◖ 1 ◗, ◖ 3 =  1 + 1·2^1 ◗, ◖ 93 = -3 + 3·2^5 ◗, ◖ 2973 = -3 + 93·2^5 ◗]
 2975 /3/ [◖ 1 ◗, ◖ 3 =  1 + 1·2^1 ◗, ◖ 93 = -3 + 3·2^5 ◗, ◖ 2975 = -1 + 93·2^5 ◗]
 2977 /3/ [◖ 1 ◗, ◖ 3 =  1 + 1·2^1 ◗, ◖ 93 = -3 + 3·2^5 ◗, ◖ 2977 =  1 + 93·2^5 ◗]
 2979 /3/ [◖ 1 ◗, ◖ 3 =  1 + 1·2^1 ◗, ◖ 93 = -3 + 3·2^5 ◗, ◖ 2979 =  3 + 93·2^5 ◗]
 2981 /4/ [◖ 1 ◗, ◖ 3 =  1 + 1·2^1 ◗, ◖ 93 = -3 + 3·2^5 ◗, ◖ 745 =  1 + 93·2^3 ◗, ◖ 2981 =  1 + 745·2^2 ◗]
 2983 /4/ [◖ 1 ◗, ◖ 3 =  1 + 1·2^1 ◗, ◖ 93 = -3 + 3·2^5 ◗, ◖ 373 =  1 + 93·2^2 ◗, ◖ 2983 = -1 + 373·2^3 ◗]
 2985 /4/ [◖ 1 ◗, ◖ 3 =  1 + 1·2^1 ◗, ◖ 93 = -3 + 3·2^5 ◗, ◖ 373 =  1 + 93·2^2 ◗, ◖ 2985 =  1 + 373·2^3 ◗]
 2987 /4/ [◖ 1 ◗, ◖ 3 =  1 + 1·2^1 ◗, ◖ 93 = -3 + 3·2^5 ◗, ◖ 747 =  3 + 93·2^3 ◗, ◖ 2987 = -1 + 747·2^2 ◗]
 2989 /4/ [◖ 1 ◗, ◖ 3 =  1 + 1·2^1 ◗, ◖ 93 = -3 + 3·2^5 ◗, ◖ 747 =  3 + 93·2^3 ◗, ◖ 2989 =  1 + 747·2^2 ◗]
 2991 /3/ [◖ 1 ◗, ◖ 17 =  1 + 1·2^4 ◗, ◖ 1105 =  17 + 17·2^6 ◗, ◖ 2991 = -1105 + 1·2^12 ◗]
 2993 /3/ [◖ 1 ◗, ◖ 15 = -1 + 1·2^4 ◗, ◖ 945 = -15 + 15·2^6 ◗, ◖ 2993 =  945 + 1·2^11 ◗]
 2995 /4/ [◖ 1 ◗, ◖ 3 =  1 + 1·2^1 ◗, ◖ 47 = -1 + 3·2^4 ◗, ◖ 749 = -3 + 47·2^4 ◗, ◖ 2995 = -1 + 749·2^2 ◗]
 2997 /4/ [◖ 1 ◗, ◖ 3 =  1 + 1·2^1 ◗, ◖ 47 = -1 + 3·2^4 ◗, ◖ 749 = -3 + 47·2^4 ◗, ◖ 2997 =  1 + 749·2^2 ◗]
 2999 /4/ [◖ 1 ◗, ◖ 3 =  1 + 1·2^1 ◗, ◖ 47 = -1 + 3·2^4 ◗, ◖ 375 = -1 + 47·2^3 ◗, ◖ 2999 = -1 + 375·2^3 ◗]
 3001 /4/ [◖ 1 ◗, ◖ 3 =  1 + 1·2^1 ◗, ◖ 47 = -1 + 3·2^4 ◗, ◖ 375 = -1 + 47·2^3 ◗, ◖ 3001 =  1 + 375·2^3 ◗]
 3003 /4/ [◖ 1 ◗, ◖ 3 =  1 + 1·2^1 ◗, ◖ 47 = -1 + 3·2^4 ◗, ◖ 751 = -1 + 47·2^4 ◗, ◖ 3003 = -1 + 751·2^2 ◗]
 3005 /3/ [◖ 1 ◗, ◖ 3 =  1 + 1·2^1 ◗, ◖ 47 = -1 + 3·2^4 ◗, ◖ 3005 = -3 + 47·2^6 ◗]
 3007 /3/ [◖ 1 ◗, ◖ 3 =  1 + 1·2^1 ◗, ◖ 47 = -1 + 3·2^4 ◗, ◖ 3007 = -1 + 47·2^6 ◗]
".
Definition v2_47 : string := " 3009 /3/ [◖ 1 ◗, ◖ 3 =  1 + 1·2^1 ◗, ◖ 47 = -1 + 3·2^4 ◗, ◖ 3009 =  1 + 47·2^6 ◗]
 3011 /3/ [◖ 1 ◗, ◖ 3 =  1 + 1·2^1 ◗, ◖ 47 = -1 + 3·2^4 ◗, ◖ 3011 =  3 + 47·2^6 ◗]
 3013 /4/ [◖ 1 ◗, ◖ 3 =  1 + 1·2^1 ◗, ◖ 47 = -1 + 3·2^4 ◗, ◖ 753 =  1 + 47·2^4 ◗, ◖ 3013 =  1 + 753·2^2 ◗]
 3015 /4/ [◖ 1 ◗, ◖ 3 =  1 + 1·2^1 ◗, ◖ 47 = -1 + 3·2^4 ◗, ◖ 377 =  1 + 47·2^3 ◗, ◖ 3015 = -1 + 377·2^3 ◗]
 3017 /4/ [◖ 1 ◗, ◖ 3 =  1 + 1·2^1 ◗, ◖ 47 = -1 + 3·2^4 ◗, ◖ 377 =  1 + 47·2^3 ◗, ◖ 3017 =  1 + 377·2^3 ◗]
 3019 /4/ [◖ 1 ◗, ◖ 3 =  1 + 1·2^1 ◗, ◖ 189 = -3 + 3·2^6 ◗, ◖ 755 = -1 + 189·2^2 ◗, ◖ 3019 = -1 + 755·2^2 ◗]
 3021 /3/ [◖ 1 ◗, ◖ 3 =  1 + 1·2^1 ◗, ◖ 189 = -3 + 3·2^6 ◗, ◖ 3021 = -3 + 189·2^4 ◗]
 3023 /3/ [◖ 1 ◗, ◖ 3 =  1 + 1·2^1 ◗, ◖ 189 = -3 + 3·2^6 ◗, ◖ 3023 = -1 + 189·2^4 ◗]
 3025 /3/ [◖ 1 ◗, ◖ 3 =  1 + 1·2^1 ◗, ◖ 189 = -3 + 3·2^6 ◗, ◖ 3025 =  1 + 189·2^4 ◗]
 3027 /3/ [◖ 1 ◗, ◖ 3 =  1 + 1·2^1 ◗, ◖ 189 = -3 + 3·2^6 ◗, ◖ 3027 =  3 + 189·2^4 ◗]
 3029 /4/ [◖ 1 ◗, ◖ 3 =  1 + 1·2^1 ◗, ◖ 189 = -3 + 3·2^6 ◗, ◖ 757 =  1 + 189·2^2 ◗, ◖ 3029 =  1 + 757·2^2 ◗]
 3031 /4/ [◖ 1 ◗, ◖ 3 =  1 + 1·2^1 ◗, ◖ 95 = -1 + 3·2^5 ◗, ◖ 379 = -1 + 95·2^2 ◗, ◖ 3031 = -1 + 379·2^3 ◗]
 3033 /4/ [◖ 1 ◗, ◖ 3 =  1 + 1·2^1 ◗, ◖ 95 = -1 + 3·2^5 ◗, ◖ 379 = -1 + 95·2^2 ◗, ◖ 3033 =  1 + 379·2^3 ◗]
 3035 /4/ [◖ 1 ◗, ◖ 3 =  1 + 1·2^1 ◗, ◖ 95 = -1 + 3·2^5 ◗, ◖ 759 = -1 + 95·2^3 ◗, ◖ 3035 = -1 + 759·2^2 ◗]
 3037 /3/ [◖ 1 ◗, ◖ 3 =  1 + 1·2^1 ◗, ◖ 95 = -1 + 3·2^5 ◗, ◖ 3037 = -3 + 95·2^5 ◗]
 3039 /3/ [◖ 1 ◗, ◖ 3 =  1 + 1·2^1 ◗, ◖ 95 = -1 + 3·2^5 ◗, ◖ 3039 = -1 + 95·2^5 ◗]
 3041 /3/ [◖ 1 ◗, ◖ 3 =  1 + 1·2^1 ◗, ◖ 95 = -1 + 3·2^5 ◗, ◖ 3041 =  1 + 95·2^5 ◗]
 3043 /3/ [◖ 1 ◗, ◖ 3 =  1 + 1·2^1 ◗, ◖ 95 = -1 + 3·2^5 ◗, ◖ 3043 =  3 + 95·2^5 ◗]
 3045 /3/ [◖ 1 ◗, ◖ 3 =  1 + 1·2^1 ◗, ◖ 381 = -3 + 3·2^7 ◗, ◖ 3045 = -3 + 381·2^3 ◗]
 3047 /3/ [◖ 1 ◗, ◖ 3 =  1 + 1·2^1 ◗, ◖ 381 = -3 + 3·2^7 ◗, ◖ 3047 = -1 + 381·2^3 ◗]
 3049 /3/ [◖ 1 ◗, ◖ 3 =  1 + 1·2^1 ◗, ◖ 381 = -3 + 3·2^7 ◗, ◖ 3049 =  1 + 381·2^3 ◗]
 3051 /3/ [◖ 1 ◗, ◖ 3 =  1 + 1·2^1 ◗, ◖ 381 = -3 + 3·2^7 ◗, ◖ 3051 =  3 + 381·2^3 ◗]
 3053 /3/ [◖ 1 ◗, ◖ 3 =  1 + 1·2^1 ◗, ◖ 191 = -1 + 3·2^6 ◗, ◖ 3053 = -3 + 191·2^4 ◗]
 3055 /3/ [◖ 1 ◗, ◖ 3 =  1 + 1·2^1 ◗, ◖ 191 = -1 + 3·2^6 ◗, ◖ 3055 = -1 + 191·2^4 ◗]
 3057 /3/ [◖ 1 ◗, ◖ 3 =  1 + 1·2^1 ◗, ◖ 191 = -1 + 3·2^6 ◗, ◖ 3057 =  1 + 191·2^4 ◗]
 3059 /3/ [◖ 1 ◗, ◖ 3 =  1 + 1·2^1 ◗, ◖ 765 = -3 + 3·2^8 ◗, ◖ 3059 = -1 + 765·2^2 ◗]
 3061 /3/ [◖ 1 ◗, ◖ 3 =  1 + 1·2^1 ◗, ◖ 765 = -3 + 3·2^8 ◗, ◖ 3061 =  1 + 765·2^2 ◗]
 3063 /3/ [◖ 1 ◗, ◖ 3 =  1 + 1·2^1 ◗, ◖ 383 = -1 + 3·2^7 ◗, ◖ 3063 = -1 + 383·2^3 ◗]
 3065 /3/ [◖ 1 ◗, ◖ 3 =  1 + 1·2^1 ◗, ◖ 383 = -1 + 3·2^7 ◗, ◖ 3065 =  1 + 383·2^3 ◗]
 3067 /3/ [◖ 1 ◗, ◖ 3 =  1 + 1·2^1 ◗, ◖ 767 = -1 + 3·2^8 ◗, ◖ 3067 = -1 + 767·2^2 ◗]
 3069 /2/ [◖ 1 ◗, ◖ 3 =  1 + 1·2^1 ◗, ◖ 3069 = -3 + 3·2^10 ◗]
 3071 /2/ [◖ 1 ◗, ◖ 3 =  1 + 1·2^1 ◗, ◖ 3071 = -1 + 3·2^10 ◗]
".
Definition v2_48 : string := " 3073 /2/ [◖ 1 ◗, ◖ 3 =  1 + 1·2^1 ◗, ◖ 3073 =  1 + 3·2^10 ◗]
 3075 /2/ [◖ 1 ◗, ◖ 3 =  1 + 1·2^1 ◗, ◖ 3075 =  3 + 3·2^10 ◗]
 3077 /3/ [◖ 1 ◗, ◖ 3 =  1 + 1·2^1 ◗, ◖ 769 =  1 + 3·2^8 ◗, ◖ 3077 =  1 + 769·2^2 ◗]
 3079 /3/ [◖ 1 ◗, ◖ 3 =  1 + 1·2^1 ◗, ◖ 385 =  1 + 3·2^7 ◗, ◖ 3079 = -1 + 385·2^3 ◗]
 3081 /3/ [◖ 1 ◗, ◖ 3 =  1 + 1·2^1 ◗, ◖ 385 =  1 + 3·2^7 ◗, ◖ 3081 =  1 + 385·2^3 ◗]
 3083 /3/ [◖ 1 ◗, ◖ 3 =  1 + 1·2^1 ◗, ◖ 771 =  3 + 3·2^8 ◗, ◖ 3083 = -1 + 771·2^2 ◗]
 3085 /3/ [◖ 1 ◗, ◖ 3 =  1 + 1·2^1 ◗, ◖ 771 =  3 + 3·2^8 ◗, ◖ 3085 =  1 + 771·2^2 ◗]
 3087 /3/ [◖ 1 ◗, ◖ 3 =  1 + 1·2^1 ◗, ◖ 193 =  1 + 3·2^6 ◗, ◖ 3087 = -1 + 193·2^4 ◗]
 3089 /3/ [◖ 1 ◗, ◖ 3 =  1 + 1·2^1 ◗, ◖ 193 =  1 + 3·2^6 ◗, ◖ 3089 =  1 + 193·2^4 ◗]
 3091 /3/ [◖ 1 ◗, ◖ 3 =  1 + 1·2^1 ◗, ◖ 193 =  1 + 3·2^6 ◗, ◖ 3091 =  3 + 193·2^4 ◗]
 3093 /3/ [◖ 1 ◗, ◖ 3 =  1 + 1·2^1 ◗, ◖ 387 =  3 + 3·2^7 ◗, ◖ 3093 = -3 + 387·2^3 ◗]
 3095 /3/ [◖ 1 ◗, ◖ 3 =  1 + 1·2^1 ◗, ◖ 387 =  3 + 3·2^7 ◗, ◖ 3095 = -1 + 387·2^3 ◗]
 3097 /3/ [◖ 1 ◗, ◖ 3 =  1 + 1·2^1 ◗, ◖ 387 =  3 + 3·2^7 ◗, ◖ 3097 =  1 + 387·2^3 ◗]
 3099 /3/ [◖ 1 ◗, ◖ 3 =  1 + 1·2^1 ◗, ◖ 387 =  3 + 3·2^7 ◗, ◖ 3099 =  3 + 387·2^3 ◗]
 3101 /3/ [◖ 1 ◗, ◖ 3 =  1 + 1·2^1 ◗, ◖ 97 =  1 + 3·2^5 ◗, ◖ 3101 = -3 + 97·2^5 ◗]
 3103 /3/ [◖ 1 ◗, ◖ 3 =  1 + 1·2^1 ◗, ◖ 97 =  1 + 3·2^5 ◗, ◖ 3103 = -1 + 97·2^5 ◗]
 3105 /3/ [◖ 1 ◗, ◖ 3 =  1 + 1·2^1 ◗, ◖ 97 =  1 + 3·2^5 ◗, ◖ 3105 =  1 + 97·2^5 ◗]
 3107 /3/ [◖ 1 ◗, ◖ 3 =  1 + 1·2^1 ◗, ◖ 97 =  1 + 3·2^5 ◗, ◖ 3107 =  3 + 97·2^5 ◗]
 3109 /4/ [◖ 1 ◗, ◖ 3 =  1 + 1·2^1 ◗, ◖ 97 =  1 + 3·2^5 ◗, ◖ 777 =  1 + 97·2^3 ◗, ◖ 3109 =  1 + 777·2^2 ◗]
 3111 /4/ [◖ 1 ◗, ◖ 3 =  1 + 1·2^1 ◗, ◖ 97 =  1 + 3·2^5 ◗, ◖ 389 =  1 + 97·2^2 ◗, ◖ 3111 = -1 + 389·2^3 ◗]
 3113 /4/ [◖ 1 ◗, ◖ 3 =  1 + 1·2^1 ◗, ◖ 97 =  1 + 3·2^5 ◗, ◖ 389 =  1 + 97·2^2 ◗, ◖ 3113 =  1 + 389·2^3 ◗]
 3115 /4/ [◖ 1 ◗, ◖ 3 =  1 + 1·2^1 ◗, ◖ 195 =  3 + 3·2^6 ◗, ◖ 779 = -1 + 195·2^2 ◗, ◖ 3115 = -1 + 779·2^2 ◗]
 3117 /3/ [◖ 1 ◗, ◖ 3 =  1 + 1·2^1 ◗, ◖ 195 =  3 + 3·2^6 ◗, ◖ 3117 = -3 + 195·2^4 ◗]
 3119 /3/ [◖ 1 ◗, ◖ 3 =  1 + 1·2^1 ◗, ◖ 195 =  3 + 3·2^6 ◗, ◖ 3119 = -1 + 195·2^4 ◗]
 3121 /3/ [◖ 1 ◗, ◖ 3 =  1 + 1·2^1 ◗, ◖ 195 =  3 + 3·2^6 ◗, ◖ 3121 =  1 + 195·2^4 ◗]
 3123 /3/ [◖ 1 ◗, ◖ 3 =  1 + 1·2^1 ◗, ◖ 195 =  3 + 3·2^6 ◗, ◖ 3123 =  3 + 195·2^4 ◗]
 3125 /4/ [◖ 1 ◗, ◖ 3 =  1 + 1·2^1 ◗, ◖ 195 =  3 + 3·2^6 ◗, ◖ 781 =  1 + 195·2^2 ◗, ◖ 3125 =  1 + 781·2^2 ◗]
 3127 /4/ [◖ 1 ◗, ◖ 3 =  1 + 1·2^1 ◗, ◖ 49 =  1 + 3·2^4 ◗, ◖ 391 = -1 + 49·2^3 ◗, ◖ 3127 = -1 + 391·2^3 ◗]
 3129 /4/ [◖ 1 ◗, ◖ 3 =  1 + 1·2^1 ◗, ◖ 49 =  1 + 3·2^4 ◗, ◖ 391 = -1 + 49·2^3 ◗, ◖ 3129 =  1 + 391·2^3 ◗]
 3131 /4/ [◖ 1 ◗, ◖ 3 =  1 + 1·2^1 ◗, ◖ 49 =  1 + 3·2^4 ◗, ◖ 783 = -1 + 49·2^4 ◗, ◖ 3131 = -1 + 783·2^2 ◗]
 3133 /3/ [◖ 1 ◗, ◖ 3 =  1 + 1·2^1 ◗, ◖ 49 =  1 + 3·2^4 ◗, ◖ 3133 = -3 + 49·2^6 ◗]
 3135 /3/ [◖ 1 ◗, ◖ 3 =  1 + 1·2^1 ◗, ◖ 49 =  1 + 3·2^4 ◗, ◖ 3135 = -1 + 49·2^6 ◗]
".
Definition v2_49 : string := " 3137 /3/ [◖ 1 ◗, ◖ 3 =  1 + 1·2^1 ◗, ◖ 49 =  1 + 3·2^4 ◗, ◖ 3137 =  1 + 49·2^6 ◗]
 3139 /3/ [◖ 1 ◗, ◖ 3 =  1 + 1·2^1 ◗, ◖ 49 =  1 + 3·2^4 ◗, ◖ 3139 =  3 + 49·2^6 ◗]
 3141 /4/ [◖ 1 ◗, ◖ 3 =  1 + 1·2^1 ◗, ◖ 49 =  1 + 3·2^4 ◗, ◖ 785 =  1 + 49·2^4 ◗, ◖ 3141 =  1 + 785·2^2 ◗]
 3143 /4/ [◖ 1 ◗, ◖ 3 =  1 + 1·2^1 ◗, ◖ 49 =  1 + 3·2^4 ◗, ◖ 393 =  1 + 49·2^3 ◗, ◖ 3143 = -1 + 393·2^3 ◗]
 3145 /4/ [◖ 1 ◗, ◖ 3 =  1 + 1·2^1 ◗, ◖ 49 =  1 + 3·2^4 ◗, ◖ 393 =  1 + 49·2^3 ◗, ◖ 3145 =  1 + 393·2^3 ◗]
 3147 /4/ [◖ 1 ◗, ◖ 3 =  1 + 1·2^1 ◗, ◖ 49 =  1 + 3·2^4 ◗, ◖ 787 =  3 + 49·2^4 ◗, ◖ 3147 = -1 + 787·2^2 ◗]
 3149 /4/ [◖ 1 ◗, ◖ 3 =  1 + 1·2^1 ◗, ◖ 49 =  1 + 3·2^4 ◗, ◖ 787 =  3 + 49·2^4 ◗, ◖ 3149 =  1 + 787·2^2 ◗]
 3151 /3/ [◖ 1 ◗, ◖ 15 = -1 + 1·2^4 ◗, ◖ 945 = -15 + 15·2^6 ◗, ◖ 3151 = -945 + 1·2^12 ◗]
 3153 /3/ [◖ 1 ◗, ◖ 17 =  1 + 1·2^4 ◗, ◖ 1105 =  17 + 17·2^6 ◗, ◖ 3153 =  1105 + 1·2^11 ◗]
 3155 /4/ [◖ 1 ◗, ◖ 3 =  1 + 1·2^1 ◗, ◖ 99 =  3 + 3·2^5 ◗, ◖ 789 = -3 + 99·2^3 ◗, ◖ 3155 = -1 + 789·2^2 ◗]
 3157 /4/ [◖ 1 ◗, ◖ 3 =  1 + 1·2^1 ◗, ◖ 99 =  3 + 3·2^5 ◗, ◖ 789 = -3 + 99·2^3 ◗, ◖ 3157 =  1 + 789·2^2 ◗]
 3159 /4/ [◖ 1 ◗, ◖ 3 =  1 + 1·2^1 ◗, ◖ 99 =  3 + 3·2^5 ◗, ◖ 395 = -1 + 99·2^2 ◗, ◖ 3159 = -1 + 395·2^3 ◗]
 3161 /4/ [◖ 1 ◗, ◖ 3 =  1 + 1·2^1 ◗, ◖ 99 =  3 + 3·2^5 ◗, ◖ 395 = -1 + 99·2^2 ◗, ◖ 3161 =  1 + 395·2^3 ◗]
 3163 /4/ [◖ 1 ◗, ◖ 3 =  1 + 1·2^1 ◗, ◖ 99 =  3 + 3·2^5 ◗, ◖ 791 = -1 + 99·2^3 ◗, ◖ 3163 = -1 + 791·2^2 ◗]
 3165 /3/ [◖ 1 ◗, ◖ 3 =  1 + 1·2^1 ◗, ◖ 99 =  3 + 3·2^5 ◗, ◖ 3165 = -3 + 99·2^5 ◗]
 3167 /3/ [◖ 1 ◗, ◖ 3 =  1 + 1·2^1 ◗, ◖ 99 =  3 + 3·2^5 ◗, ◖ 3167 = -1 + 99·2^5 ◗]
 3169 /3/ [◖ 1 ◗, ◖ 3 =  1 + 1·2^1 ◗, ◖ 99 =  3 + 3·2^5 ◗, ◖ 3169 =  1 + 99·2^5 ◗]
 3171 /3/ [◖ 1 ◗, ◖ 3 =  1 + 1·2^1 ◗, ◖ 99 =  3 + 3·2^5 ◗, ◖ 3171 =  3 + 99·2^5 ◗]
 3173 /4/ [◖ 1 ◗, ◖ 3 =  1 + 1·2^1 ◗, ◖ 99 =  3 + 3·2^5 ◗, ◖ 793 =  1 + 99·2^3 ◗, ◖ 3173 =  1 + 793·2^2 ◗]
 3175 /3/ [◖ 1 ◗, ◖ 3 =  1 + 1·2^1 ◗, ◖ 25 =  1 + 3·2^3 ◗, ◖ 3175 = -25 + 25·2^7 ◗]
 3177 /4/ [◖ 1 ◗, ◖ 3 =  1 + 1·2^1 ◗, ◖ 99 =  3 + 3·2^5 ◗, ◖ 397 =  1 + 99·2^2 ◗, ◖ 3177 =  1 + 397·2^3 ◗]
 3179 /4/ [◖ 1 ◗, ◖ 3 =  1 + 1·2^1 ◗, ◖ 99 =  3 + 3·2^5 ◗, ◖ 795 =  3 + 99·2^3 ◗, ◖ 3179 = -1 + 795·2^2 ◗]
 3181 /4/ [◖ 1 ◗, ◖ 3 =  1 + 1·2^1 ◗, ◖ 99 =  3 + 3·2^5 ◗, ◖ 795 =  3 + 99·2^3 ◗, ◖ 3181 =  1 + 795·2^2 ◗]
 3183 /3/ [◖ 1 ◗, ◖ 17 =  1 + 1·2^4 ◗, ◖ 2159 = -17 + 17·2^7 ◗, ◖ 3183 =  2159 + 1·2^10 ◗]
 3185 /3/ [◖ 1 ◗, ◖ 3 =  1 + 1·2^1 ◗, ◖ 49 =  1 + 3·2^4 ◗, ◖ 3185 =  49 + 49·2^6 ◗]
 3187 /4/ [◖ 1 ◗, ◖ 3 =  1 + 1·2^1 ◗, ◖ 25 =  1 + 3·2^3 ◗, ◖ 797 = -3 + 25·2^5 ◗, ◖ 3187 = -1 + 797·2^2 ◗]
 3189 /4/ [◖ 1 ◗, ◖ 3 =  1 + 1·2^1 ◗, ◖ 25 =  1 + 3·2^3 ◗, ◖ 797 = -3 + 25·2^5 ◗, ◖ 3189 =  1 + 797·2^2 ◗]
 3191 /3/ [◖ 1 ◗, ◖ 9 =  1 + 1·2^3 ◗, ◖ 1143 = -9 + 9·2^7 ◗, ◖ 3191 =  1143 + 1·2^11 ◗]
 3193 /3/ [◖ 1 ◗, ◖ 7 = -1 + 1·2^3 ◗, ◖ 903 =  7 + 7·2^7 ◗, ◖ 3193 = -903 + 1·2^12 ◗]
 3195 /4/ [◖ 1 ◗, ◖ 3 =  1 + 1·2^1 ◗, ◖ 25 =  1 + 3·2^3 ◗, ◖ 799 = -1 + 25·2^5 ◗, ◖ 3195 = -1 + 799·2^2 ◗]
 3197 /3/ [◖ 1 ◗, ◖ 3 =  1 + 1·2^1 ◗, ◖ 25 =  1 + 3·2^3 ◗, ◖ 3197 = -3 + 25·2^7 ◗]
 3199 /3/ [◖ 1 ◗, ◖ 3 =  1 + 1·2^1 ◗, ◖ 25 =  1 + 3·2^3 ◗, ◖ 3199 = -1 + 25·2^7 ◗]
".
Definition v2_50 : string := " 3201 /3/ [◖ 1 ◗, ◖ 3 =  1 + 1·2^1 ◗, ◖ 25 =  1 + 3·2^3 ◗, ◖ 3201 =  1 + 25·2^7 ◗]
 3203 /3/ [◖ 1 ◗, ◖ 3 =  1 + 1·2^1 ◗, ◖ 25 =  1 + 3·2^3 ◗, ◖ 3203 =  3 + 25·2^7 ◗]
 3205 /4/ [◖ 1 ◗, ◖ 3 =  1 + 1·2^1 ◗, ◖ 25 =  1 + 3·2^3 ◗, ◖ 801 =  1 + 25·2^5 ◗, ◖ 3205 =  1 + 801·2^2 ◗]
 3207 /3/ [◖ 1 ◗, ◖ 7 = -1 + 1·2^3 ◗, ◖ 889 = -7 + 7·2^7 ◗, ◖ 3207 = -889 + 1·2^12 ◗]
 3209 /3/ [◖ 1 ◗, ◖ 9 =  1 + 1·2^3 ◗, ◖ 1161 =  9 + 9·2^7 ◗, ◖ 3209 =  1161 + 1·2^11 ◗]
 3211 /4/ [◖ 1 ◗, ◖ 3 =  1 + 1·2^1 ◗, ◖ 25 =  1 + 3·2^3 ◗, ◖ 803 =  3 + 25·2^5 ◗, ◖ 3211 = -1 + 803·2^2 ◗]
 3213 /3/ [◖ 1 ◗, ◖ 3 =  1 + 1·2^1 ◗, ◖ 51 =  3 + 3·2^4 ◗, ◖ 3213 = -51 + 51·2^6 ◗]
 3215 /4/ [◖ 1 ◗, ◖ 3 =  1 + 1·2^1 ◗, ◖ 25 =  1 + 3·2^3 ◗, ◖ 201 =  1 + 25·2^3 ◗, ◖ 3215 = -1 + 201·2^4 ◗]
 3217 /3/ [◖ 1 ◗, ◖ 17 =  1 + 1·2^4 ◗, ◖ 2193 =  17 + 17·2^7 ◗, ◖ 3217 =  2193 + 1·2^10 ◗]
 3219 /4/ [◖ 1 ◗, ◖ 9 =  1 + 1·2^3 ◗, ◖ 585 =  9 + 9·2^6 ◗, ◖ 1609 =  585 + 1·2^10 ◗, ◖ 3219 =  1 + 1609·2^1 ◗]
 3221 /4/ [◖ 1 ◗, ◖ 3 =  1 + 1·2^1 ◗, ◖ 25 =  1 + 3·2^3 ◗, ◖ 403 =  3 + 25·2^4 ◗, ◖ 3221 = -3 + 403·2^3 ◗]
 3223 /4/ [◖ 1 ◗, ◖ 3 =  1 + 1·2^1 ◗, ◖ 25 =  1 + 3·2^3 ◗, ◖ 403 =  3 + 25·2^4 ◗, ◖ 3223 = -1 + 403·2^3 ◗]
 3225 /3/ [◖ 1 ◗, ◖ 3 =  1 + 1·2^1 ◗, ◖ 25 =  1 + 3·2^3 ◗, ◖ 3225 =  25 + 25·2^7 ◗]
 3227 /4/ [◖ 1 ◗, ◖ 7 = -1 + 1·2^3 ◗, ◖ 217 = -7 + 7·2^5 ◗, ◖ 807 = -217 + 1·2^10 ◗, ◖ 3227 = -1 + 807·2^2 ◗]
 3229 /4/ [◖ 1 ◗, ◖ 3 =  1 + 1·2^1 ◗, ◖ 95 = -1 + 3·2^5 ◗, ◖ 1615 =  95 + 95·2^4 ◗, ◖ 3229 = -1 + 1615·2^1 ◗]
 3231 /4/ [◖ 1 ◗, ◖ 3 =  1 + 1·2^1 ◗, ◖ 25 =  1 + 3·2^3 ◗, ◖ 101 =  1 + 25·2^2 ◗, ◖ 3231 = -1 + 101·2^5 ◗]
 3233 /3/ [◖ 1 ◗, ◖ 33 =  1 + 1·2^5 ◗, ◖ 4257 =  33 + 33·2^7 ◗, ◖ 3233 =  4257 - 1·2^10 ◗]
 3235 /4/ [◖ 1 ◗, ◖ 9 =  1 + 1·2^3 ◗, ◖ 297 =  9 + 9·2^5 ◗, ◖ 809 =  297 + 1·2^9 ◗, ◖ 3235 = -1 + 809·2^2 ◗]
 3237 /4/ [◖ 1 ◗, ◖ 9 =  1 + 1·2^3 ◗, ◖ 297 =  9 + 9·2^5 ◗, ◖ 809 =  297 + 1·2^9 ◗, ◖ 3237 =  1 + 809·2^2 ◗]
 3239 /4/ [◖ 1 ◗, ◖ 3 =  1 + 1·2^1 ◗, ◖ 51 =  3 + 3·2^4 ◗, ◖ 405 = -3 + 51·2^3 ◗, ◖ 3239 = -1 + 405·2^3 ◗]
 3241 /4/ [◖ 1 ◗, ◖ 3 =  1 + 1·2^1 ◗, ◖ 51 =  3 + 3·2^4 ◗, ◖ 405 = -3 + 51·2^3 ◗, ◖ 3241 =  1 + 405·2^3 ◗]
 3243 /4/ [◖ 1 ◗, ◖ 3 =  1 + 1·2^1 ◗, ◖ 51 =  3 + 3·2^4 ◗, ◖ 405 = -3 + 51·2^3 ◗, ◖ 3243 =  3 + 405·2^3 ◗]
 3245 /4/ [◖ 1 ◗, ◖ 3 =  1 + 1·2^1 ◗, ◖ 51 =  3 + 3·2^4 ◗, ◖ 203 = -1 + 51·2^2 ◗, ◖ 3245 = -3 + 203·2^4 ◗]
 3247 /3/ [◖ 1 ◗, ◖ 3 =  1 + 1·2^1 ◗, ◖ 191 = -1 + 3·2^6 ◗, ◖ 3247 =  191 + 191·2^4 ◗]
 3249 /4/ [◖ 1 ◗, ◖ 3 =  1 + 1·2^1 ◗, ◖ 51 =  3 + 3·2^4 ◗, ◖ 203 = -1 + 51·2^2 ◗, ◖ 3249 =  1 + 203·2^4 ◗]
 3251 /4/ [◖ 1 ◗, ◖ 3 =  1 + 1·2^1 ◗, ◖ 51 =  3 + 3·2^4 ◗, ◖ 813 = -3 + 51·2^4 ◗, ◖ 3251 = -1 + 813·2^2 ◗]
 3253 /4/ [◖ 1 ◗, ◖ 3 =  1 + 1·2^1 ◗, ◖ 51 =  3 + 3·2^4 ◗, ◖ 813 = -3 + 51·2^4 ◗, ◖ 3253 =  1 + 813·2^2 ◗]
 3255 /3/ [◖ 1 ◗, ◖ 7 = -1 + 1·2^3 ◗, ◖ 105 = -7 + 7·2^4 ◗, ◖ 3255 = -105 + 105·2^5 ◗]
 3257 /4/ [◖ 1 ◗, ◖ 3 =  1 + 1·2^1 ◗, ◖ 51 =  3 + 3·2^4 ◗, ◖ 407 = -1 + 51·2^3 ◗, ◖ 3257 =  1 + 407·2^3 ◗]
 3259 /4/ [◖ 1 ◗, ◖ 3 =  1 + 1·2^1 ◗, ◖ 51 =  3 + 3·2^4 ◗, ◖ 815 = -1 + 51·2^4 ◗, ◖ 3259 = -1 + 815·2^2 ◗]
 3261 /3/ [◖ 1 ◗, ◖ 3 =  1 + 1·2^1 ◗, ◖ 51 =  3 + 3·2^4 ◗, ◖ 3261 = -3 + 51·2^6 ◗]
 3263 /3/ [◖ 1 ◗, ◖ 3 =  1 + 1·2^1 ◗, ◖ 51 =  3 + 3·2^4 ◗, ◖ 3263 = -1 + 51·2^6 ◗]
".
Definition v2_51 : string := " 3265 /3/ [◖ 1 ◗, ◖ 3 =  1 + 1·2^1 ◗, ◖ 51 =  3 + 3·2^4 ◗, ◖ 3265 =  1 + 51·2^6 ◗]
 3267 /3/ [◖ 1 ◗, ◖ 3 =  1 + 1·2^1 ◗, ◖ 51 =  3 + 3·2^4 ◗, ◖ 3267 =  3 + 51·2^6 ◗]
 3269 /4/ [◖ 1 ◗, ◖ 3 =  1 + 1·2^1 ◗, ◖ 51 =  3 + 3·2^4 ◗, ◖ 817 =  1 + 51·2^4 ◗, ◖ 3269 =  1 + 817·2^2 ◗]
 3271 /4/ [◖ 1 ◗, ◖ 3 =  1 + 1·2^1 ◗, ◖ 51 =  3 + 3·2^4 ◗, ◖ 409 =  1 + 51·2^3 ◗, ◖ 3271 = -1 + 409·2^3 ◗]
 3273 /4/ [◖ 1 ◗, ◖ 3 =  1 + 1·2^1 ◗, ◖ 51 =  3 + 3·2^4 ◗, ◖ 409 =  1 + 51·2^3 ◗, ◖ 3273 =  1 + 409·2^3 ◗]
 3275 /4/ [◖ 1 ◗, ◖ 3 =  1 + 1·2^1 ◗, ◖ 51 =  3 + 3·2^4 ◗, ◖ 819 =  3 + 51·2^4 ◗, ◖ 3275 = -1 + 819·2^2 ◗]
 3277 /4/ [◖ 1 ◗, ◖ 3 =  1 + 1·2^1 ◗, ◖ 51 =  3 + 3·2^4 ◗, ◖ 819 =  3 + 51·2^4 ◗, ◖ 3277 =  1 + 819·2^2 ◗]
 3279 /4/ [◖ 1 ◗, ◖ 3 =  1 + 1·2^1 ◗, ◖ 51 =  3 + 3·2^4 ◗, ◖ 205 =  1 + 51·2^2 ◗, ◖ 3279 = -1 + 205·2^4 ◗]
 3281 /3/ [◖ 1 ◗, ◖ 3 =  1 + 1·2^1 ◗, ◖ 193 =  1 + 3·2^6 ◗, ◖ 3281 =  193 + 193·2^4 ◗]
 3283 /4/ [◖ 1 ◗, ◖ 3 =  1 + 1·2^1 ◗, ◖ 51 =  3 + 3·2^4 ◗, ◖ 205 =  1 + 51·2^2 ◗, ◖ 3283 =  3 + 205·2^4 ◗]
 3285 /4/ [◖ 1 ◗, ◖ 3 =  1 + 1·2^1 ◗, ◖ 51 =  3 + 3·2^4 ◗, ◖ 411 =  3 + 51·2^3 ◗, ◖ 3285 = -3 + 411·2^3 ◗]
 3287 /4/ [◖ 1 ◗, ◖ 3 =  1 + 1·2^1 ◗, ◖ 51 =  3 + 3·2^4 ◗, ◖ 411 =  3 + 51·2^3 ◗, ◖ 3287 = -1 + 411·2^3 ◗]
 3289 /4/ [◖ 1 ◗, ◖ 3 =  1 + 1·2^1 ◗, ◖ 51 =  3 + 3·2^4 ◗, ◖ 411 =  3 + 51·2^3 ◗, ◖ 3289 =  1 + 411·2^3 ◗]
 3291 /4/ [◖ 1 ◗, ◖ 9 =  1 + 1·2^3 ◗, ◖ 567 = -9 + 9·2^6 ◗, ◖ 823 =  567 + 1·2^8 ◗, ◖ 3291 = -1 + 823·2^2 ◗]
 3293 /4/ [◖ 1 ◗, ◖ 9 =  1 + 1·2^3 ◗, ◖ 567 = -9 + 9·2^6 ◗, ◖ 823 =  567 + 1·2^8 ◗, ◖ 3293 =  1 + 823·2^2 ◗]
 3295 /4/ [◖ 1 ◗, ◖ 3 =  1 + 1·2^1 ◗, ◖ 13 =  1 + 3·2^2 ◗, ◖ 103 = -1 + 13·2^3 ◗, ◖ 3295 = -1 + 103·2^5 ◗]
 3297 /4/ [◖ 1 ◗, ◖ 3 =  1 + 1·2^1 ◗, ◖ 13 =  1 + 3·2^2 ◗, ◖ 103 = -1 + 13·2^3 ◗, ◖ 3297 =  1 + 103·2^5 ◗]
 3299 /4/ [◖ 1 ◗, ◖ 3 =  1 + 1·2^1 ◗, ◖ 25 =  1 + 3·2^3 ◗, ◖ 825 =  25 + 25·2^5 ◗, ◖ 3299 = -1 + 825·2^2 ◗]
 3301 /4/ [◖ 1 ◗, ◖ 3 =  1 + 1·2^1 ◗, ◖ 13 =  1 + 3·2^2 ◗, ◖ 1651 = -13 + 13·2^7 ◗, ◖ 3301 = -1 + 1651·2^1 ◗]
 3303 /4/ [◖ 1 ◗, ◖ 3 =  1 + 1·2^1 ◗, ◖ 13 =  1 + 3·2^2 ◗, ◖ 413 = -3 + 13·2^5 ◗, ◖ 3303 = -1 + 413·2^3 ◗]
 3305 /4/ [◖ 1 ◗, ◖ 3 =  1 + 1·2^1 ◗, ◖ 13 =  1 + 3·2^2 ◗, ◖ 413 = -3 + 13·2^5 ◗, ◖ 3305 =  1 + 413·2^3 ◗]
 3307 /4/ [◖ 1 ◗, ◖ 5 =  1 + 1·2^2 ◗, ◖ 315 = -5 + 5·2^6 ◗, ◖ 827 =  315 + 1·2^9 ◗, ◖ 3307 = -1 + 827·2^2 ◗]
 3309 /4/ [◖ 1 ◗, ◖ 5 =  1 + 1·2^2 ◗, ◖ 315 = -5 + 5·2^6 ◗, ◖ 827 =  315 + 1·2^9 ◗, ◖ 3309 =  1 + 827·2^2 ◗]
 3311 /3/ [◖ 1 ◗, ◖ 17 =  1 + 1·2^4 ◗, ◖ 4335 = -17 + 17·2^8 ◗, ◖ 3311 =  4335 - 1·2^10 ◗]
 3313 /3/ [◖ 1 ◗, ◖ 15 = -1 + 1·2^4 ◗, ◖ 3825 = -15 + 15·2^8 ◗, ◖ 3313 =  3825 - 1·2^9 ◗]
 3315 /3/ [◖ 1 ◗, ◖ 3 =  1 + 1·2^1 ◗, ◖ 13 =  1 + 3·2^2 ◗, ◖ 3315 = -13 + 13·2^8 ◗]
 3317 /4/ [◖ 1 ◗, ◖ 3 =  1 + 1·2^1 ◗, ◖ 13 =  1 + 3·2^2 ◗, ◖ 829 = -3 + 13·2^6 ◗, ◖ 3317 =  1 + 829·2^2 ◗]
 3319 /3/ [◖ 1 ◗, ◖ 9 =  1 + 1·2^3 ◗, ◖ 2295 = -9 + 9·2^8 ◗, ◖ 3319 =  2295 + 1·2^10 ◗]
 3321 /3/ [◖ 1 ◗, ◖ 7 = -1 + 1·2^3 ◗, ◖ 3577 = -7 + 7·2^9 ◗, ◖ 3321 =  3577 - 1·2^8 ◗]
 3323 /3/ [◖ 1 ◗, ◖ 5 =  1 + 1·2^2 ◗, ◖ 1275 = -5 + 5·2^8 ◗, ◖ 3323 =  1275 + 1·2^11 ◗]
 3325 /3/ [◖ 1 ◗, ◖ 3 =  1 + 1·2^1 ◗, ◖ 13 =  1 + 3·2^2 ◗, ◖ 3325 = -3 + 13·2^8 ◗]
 3327 /3/ [◖ 1 ◗, ◖ 3 =  1 + 1·2^1 ◗, ◖ 13 =  1 + 3·2^2 ◗, ◖ 3327 = -1 + 13·2^8 ◗]
".
Definition v2_52 : string := " 3329 /3/ [◖ 1 ◗, ◖ 3 =  1 + 1·2^1 ◗, ◖ 13 =  1 + 3·2^2 ◗, ◖ 3329 =  1 + 13·2^8 ◗]
 3331 /3/ [◖ 1 ◗, ◖ 3 =  1 + 1·2^1 ◗, ◖ 13 =  1 + 3·2^2 ◗, ◖ 3331 =  3 + 13·2^8 ◗]
 3333 /3/ [◖ 1 ◗, ◖ 5 =  1 + 1·2^2 ◗, ◖ 1285 =  5 + 5·2^8 ◗, ◖ 3333 =  1285 + 1·2^11 ◗]
 3335 /3/ [◖ 1 ◗, ◖ 7 = -1 + 1·2^3 ◗, ◖ 3591 =  7 + 7·2^9 ◗, ◖ 3335 =  3591 - 1·2^8 ◗]
 3337 /3/ [◖ 1 ◗, ◖ 9 =  1 + 1·2^3 ◗, ◖ 2313 =  9 + 9·2^8 ◗, ◖ 3337 =  2313 + 1·2^10 ◗]
 3339 /4/ [◖ 1 ◗, ◖ 3 =  1 + 1·2^1 ◗, ◖ 13 =  1 + 3·2^2 ◗, ◖ 835 =  3 + 13·2^6 ◗, ◖ 3339 = -1 + 835·2^2 ◗]
 3341 /3/ [◖ 1 ◗, ◖ 3 =  1 + 1·2^1 ◗, ◖ 13 =  1 + 3·2^2 ◗, ◖ 3341 =  13 + 13·2^8 ◗]
 3343 /3/ [◖ 1 ◗, ◖ 15 = -1 + 1·2^4 ◗, ◖ 3855 =  15 + 15·2^8 ◗, ◖ 3343 =  3855 - 1·2^9 ◗]
 3345 /3/ [◖ 1 ◗, ◖ 7 = -1 + 1·2^3 ◗, ◖ 223 = -1 + 7·2^5 ◗, ◖ 3345 = -223 + 223·2^4 ◗]
 3347 /4/ [◖ 1 ◗, ◖ 7 = -1 + 1·2^3 ◗, ◖ 105 = -7 + 7·2^4 ◗, ◖ 1673 = -7 + 105·2^4 ◗, ◖ 3347 =  1 + 1673·2^1 ◗]
 3349 /4/ [◖ 1 ◗, ◖ 3 =  1 + 1·2^1 ◗, ◖ 93 = -3 + 3·2^5 ◗, ◖ 837 =  93 + 93·2^3 ◗, ◖ 3349 =  1 + 837·2^2 ◗]
 3351 /4/ [◖ 1 ◗, ◖ 7 = -1 + 1·2^3 ◗, ◖ 105 = -7 + 7·2^4 ◗, ◖ 419 = -1 + 105·2^2 ◗, ◖ 3351 = -1 + 419·2^3 ◗]
 3353 /3/ [◖ 1 ◗, ◖ 7 = -1 + 1·2^3 ◗, ◖ 105 = -7 + 7·2^4 ◗, ◖ 3353 = -7 + 105·2^5 ◗]
 3355 /4/ [◖ 1 ◗, ◖ 7 = -1 + 1·2^3 ◗, ◖ 105 = -7 + 7·2^4 ◗, ◖ 839 = -1 + 105·2^3 ◗, ◖ 3355 = -1 + 839·2^2 ◗]
 3357 /4/ [◖ 1 ◗, ◖ 7 = -1 + 1·2^3 ◗, ◖ 105 = -7 + 7·2^4 ◗, ◖ 839 = -1 + 105·2^3 ◗, ◖ 3357 =  1 + 839·2^2 ◗]
 3359 /3/ [◖ 1 ◗, ◖ 7 = -1 + 1·2^3 ◗, ◖ 105 = -7 + 7·2^4 ◗, ◖ 3359 = -1 + 105·2^5 ◗]
 3361 /3/ [◖ 1 ◗, ◖ 7 = -1 + 1·2^3 ◗, ◖ 105 = -7 + 7·2^4 ◗, ◖ 3361 =  1 + 105·2^5 ◗]
 3363 /4/ [◖ 1 ◗, ◖ 7 = -1 + 1·2^3 ◗, ◖ 105 = -7 + 7·2^4 ◗, ◖ 841 =  1 + 105·2^3 ◗, ◖ 3363 = -1 + 841·2^2 ◗]
 3365 /4/ [◖ 1 ◗, ◖ 7 = -1 + 1·2^3 ◗, ◖ 105 = -7 + 7·2^4 ◗, ◖ 841 =  1 + 105·2^3 ◗, ◖ 3365 =  1 + 841·2^2 ◗]
 3367 /3/ [◖ 1 ◗, ◖ 7 = -1 + 1·2^3 ◗, ◖ 105 = -7 + 7·2^4 ◗, ◖ 3367 =  7 + 105·2^5 ◗]
 3369 /4/ [◖ 1 ◗, ◖ 7 = -1 + 1·2^3 ◗, ◖ 105 = -7 + 7·2^4 ◗, ◖ 421 =  1 + 105·2^2 ◗, ◖ 3369 =  1 + 421·2^3 ◗]
 3371 /4/ [◖ 1 ◗, ◖ 7 = -1 + 1·2^3 ◗, ◖ 105 = -7 + 7·2^4 ◗, ◖ 841 =  1 + 105·2^3 ◗, ◖ 3371 =  7 + 841·2^2 ◗]
 3373 /4/ [◖ 1 ◗, ◖ 7 = -1 + 1·2^3 ◗, ◖ 105 = -7 + 7·2^4 ◗, ◖ 1687 =  7 + 105·2^4 ◗, ◖ 3373 = -1 + 1687·2^1 ◗]
 3375 /3/ [◖ 1 ◗, ◖ 7 = -1 + 1·2^3 ◗, ◖ 225 =  1 + 7·2^5 ◗, ◖ 3375 = -225 + 225·2^4 ◗]
 3377 /4/ [◖ 1 ◗, ◖ 7 = -1 + 1·2^3 ◗, ◖ 105 = -7 + 7·2^4 ◗, ◖ 211 =  1 + 105·2^1 ◗, ◖ 3377 =  1 + 211·2^4 ◗]
 3379 /4/ [◖ 1 ◗, ◖ 3 =  1 + 1·2^1 ◗, ◖ 13 =  1 + 3·2^2 ◗, ◖ 845 =  13 + 13·2^6 ◗, ◖ 3379 = -1 + 845·2^2 ◗]
 3381 /4/ [◖ 1 ◗, ◖ 3 =  1 + 1·2^1 ◗, ◖ 13 =  1 + 3·2^2 ◗, ◖ 845 =  13 + 13·2^6 ◗, ◖ 3381 =  1 + 845·2^2 ◗]
 3383 /4/ [◖ 1 ◗, ◖ 3 =  1 + 1·2^1 ◗, ◖ 47 = -1 + 3·2^4 ◗, ◖ 423 =  47 + 47·2^3 ◗, ◖ 3383 = -1 + 423·2^3 ◗]
 3385 /4/ [◖ 1 ◗, ◖ 3 =  1 + 1·2^1 ◗, ◖ 47 = -1 + 3·2^4 ◗, ◖ 423 =  47 + 47·2^3 ◗, ◖ 3385 =  1 + 423·2^3 ◗]
 3387 /4/ [◖ 1 ◗, ◖ 15 = -1 + 1·2^4 ◗, ◖ 975 =  15 + 15·2^6 ◗, ◖ 847 =  975 - 1·2^7 ◗, ◖ 3387 = -1 + 847·2^2 ◗]
 3389 /4/ [◖ 1 ◗, ◖ 15 = -1 + 1·2^4 ◗, ◖ 975 =  15 + 15·2^6 ◗, ◖ 847 =  975 - 1·2^7 ◗, ◖ 3389 =  1 + 847·2^2 ◗]
 3391 /4/ [◖ 1 ◗, ◖ 3 =  1 + 1·2^1 ◗, ◖ 13 =  1 + 3·2^2 ◗, ◖ 53 =  1 + 13·2^2 ◗, ◖ 3391 = -1 + 53·2^6 ◗]
".
Definition v2_53 : string := " 3393 /4/ [◖ 1 ◗, ◖ 3 =  1 + 1·2^1 ◗, ◖ 13 =  1 + 3·2^2 ◗, ◖ 53 =  1 + 13·2^2 ◗, ◖ 3393 =  1 + 53·2^6 ◗]
 3395 /4/ [◖ 1 ◗, ◖ 17 =  1 + 1·2^4 ◗, ◖ 1105 =  17 + 17·2^6 ◗, ◖ 849 =  1105 - 1·2^8 ◗, ◖ 3395 = -1 + 849·2^2 ◗]
 3397 /4/ [◖ 1 ◗, ◖ 17 =  1 + 1·2^4 ◗, ◖ 1105 =  17 + 17·2^6 ◗, ◖ 849 =  1105 - 1·2^8 ◗, ◖ 3397 =  1 + 849·2^2 ◗]
 3399 /4/ [◖ 1 ◗, ◖ 7 = -1 + 1·2^3 ◗, ◖ 27 = -1 + 7·2^2 ◗, ◖ 425 = -7 + 27·2^4 ◗, ◖ 3399 = -1 + 425·2^3 ◗]
 3401 /4/ [◖ 1 ◗, ◖ 7 = -1 + 1·2^3 ◗, ◖ 27 = -1 + 7·2^2 ◗, ◖ 425 = -7 + 27·2^4 ◗, ◖ 3401 =  1 + 425·2^3 ◗]
 3403 /4/ [◖ 1 ◗, ◖ 7 = -1 + 1·2^3 ◗, ◖ 27 = -1 + 7·2^2 ◗, ◖ 1701 = -27 + 27·2^6 ◗, ◖ 3403 =  1 + 1701·2^1 ◗]
 3405 /4/ [◖ 1 ◗, ◖ 3 =  1 + 1·2^1 ◗, ◖ 13 =  1 + 3·2^2 ◗, ◖ 53 =  1 + 13·2^2 ◗, ◖ 3405 =  13 + 53·2^6 ◗]
 3407 /4/ [◖ 1 ◗, ◖ 7 = -1 + 1·2^3 ◗, ◖ 55 = -1 + 7·2^3 ◗, ◖ 213 = -7 + 55·2^2 ◗, ◖ 3407 = -1 + 213·2^4 ◗]
 3409 /4/ [◖ 1 ◗, ◖ 7 = -1 + 1·2^3 ◗, ◖ 55 = -1 + 7·2^3 ◗, ◖ 213 = -7 + 55·2^2 ◗, ◖ 3409 =  1 + 213·2^4 ◗]
 3411 /4/ [◖ 1 ◗, ◖ 7 = -1 + 1·2^3 ◗, ◖ 55 = -1 + 7·2^3 ◗, ◖ 1705 = -55 + 55·2^5 ◗, ◖ 3411 =  1 + 1705·2^1 ◗]
 3413 /4/ [◖ 1 ◗, ◖ 17 =  1 + 1·2^4 ◗, ◖ 1105 =  17 + 17·2^6 ◗, ◖ 849 =  1105 - 1·2^8 ◗, ◖ 3413 =  17 + 849·2^2 ◗]
 3415 /4/ [◖ 1 ◗, ◖ 7 = -1 + 1·2^3 ◗, ◖ 105 = -7 + 7·2^4 ◗, ◖ 427 =  7 + 105·2^2 ◗, ◖ 3415 = -1 + 427·2^3 ◗]
 3417 /4/ [◖ 1 ◗, ◖ 7 = -1 + 1·2^3 ◗, ◖ 105 = -7 + 7·2^4 ◗, ◖ 427 =  7 + 105·2^2 ◗, ◖ 3417 =  1 + 427·2^3 ◗]
 3419 /4/ [◖ 1 ◗, ◖ 3 =  1 + 1·2^1 ◗, ◖ 95 = -1 + 3·2^5 ◗, ◖ 855 =  95 + 95·2^3 ◗, ◖ 3419 = -1 + 855·2^2 ◗]
 3421 /4/ [◖ 1 ◗, ◖ 3 =  1 + 1·2^1 ◗, ◖ 95 = -1 + 3·2^5 ◗, ◖ 855 =  95 + 95·2^3 ◗, ◖ 3421 =  1 + 855·2^2 ◗]
 3423 /4/ [◖ 1 ◗, ◖ 7 = -1 + 1·2^3 ◗, ◖ 27 = -1 + 7·2^2 ◗, ◖ 107 = -1 + 27·2^2 ◗, ◖ 3423 = -1 + 107·2^5 ◗]
 3425 /3/ [◖ 1 ◗, ◖ 31 = -1 + 1·2^5 ◗, ◖ 3937 = -31 + 31·2^7 ◗, ◖ 3425 =  3937 - 1·2^9 ◗]
 3427 /4/ [◖ 1 ◗, ◖ 7 = -1 + 1·2^3 ◗, ◖ 27 = -1 + 7·2^2 ◗, ◖ 857 = -7 + 27·2^5 ◗, ◖ 3427 = -1 + 857·2^2 ◗]
 3429 /3/ [◖ 1 ◗, ◖ 7 = -1 + 1·2^3 ◗, ◖ 27 = -1 + 7·2^2 ◗, ◖ 3429 = -27 + 27·2^7 ◗]
 3431 /4/ [◖ 1 ◗, ◖ 3 =  1 + 1·2^1 ◗, ◖ 13 =  1 + 3·2^2 ◗, ◖ 429 =  13 + 13·2^5 ◗, ◖ 3431 = -1 + 429·2^3 ◗]
 3433 /4/ [◖ 1 ◗, ◖ 3 =  1 + 1·2^1 ◗, ◖ 13 =  1 + 3·2^2 ◗, ◖ 429 =  13 + 13·2^5 ◗, ◖ 3433 =  1 + 429·2^3 ◗]
 3435 /4/ [◖ 1 ◗, ◖ 5 =  1 + 1·2^2 ◗, ◖ 165 =  5 + 5·2^5 ◗, ◖ 859 = -165 + 1·2^10 ◗, ◖ 3435 = -1 + 859·2^2 ◗]
 3437 /4/ [◖ 1 ◗, ◖ 3 =  1 + 1·2^1 ◗, ◖ 191 = -1 + 3·2^6 ◗, ◖ 1719 =  191 + 191·2^3 ◗, ◖ 3437 = -1 + 1719·2^1 ◗]
 3439 /4/ [◖ 1 ◗, ◖ 7 = -1 + 1·2^3 ◗, ◖ 27 = -1 + 7·2^2 ◗, ◖ 215 = -1 + 27·2^3 ◗, ◖ 3439 = -1 + 215·2^4 ◗]
 3441 /3/ [◖ 1 ◗, ◖ 7 = -1 + 1·2^3 ◗, ◖ 111 = -1 + 7·2^4 ◗, ◖ 3441 = -111 + 111·2^5 ◗]
 3443 /4/ [◖ 1 ◗, ◖ 7 = -1 + 1·2^3 ◗, ◖ 27 = -1 + 7·2^2 ◗, ◖ 1721 = -7 + 27·2^6 ◗, ◖ 3443 =  1 + 1721·2^1 ◗]
 3445 /4/ [◖ 1 ◗, ◖ 7 = -1 + 1·2^3 ◗, ◖ 217 = -7 + 7·2^5 ◗, ◖ 861 = -7 + 217·2^2 ◗, ◖ 3445 =  1 + 861·2^2 ◗]
 3447 /3/ [◖ 1 ◗, ◖ 3 =  1 + 1·2^1 ◗, ◖ 383 = -1 + 3·2^7 ◗, ◖ 3447 =  383 + 383·2^3 ◗]
 3449 /3/ [◖ 1 ◗, ◖ 7 = -1 + 1·2^3 ◗, ◖ 27 = -1 + 7·2^2 ◗, ◖ 3449 = -7 + 27·2^7 ◗]
 3451 /3/ [◖ 1 ◗, ◖ 5 =  1 + 1·2^2 ◗, ◖ 645 =  5 + 5·2^7 ◗, ◖ 3451 = -645 + 1·2^12 ◗]
 3453 /3/ [◖ 1 ◗, ◖ 9 =  1 + 1·2^3 ◗, ◖ 1151 = -1 + 9·2^7 ◗, ◖ 3453 =  1151 + 1151·2^1 ◗]
 3455 /3/ [◖ 1 ◗, ◖ 7 = -1 + 1·2^3 ◗, ◖ 27 = -1 + 7·2^2 ◗, ◖ 3455 = -1 + 27·2^7 ◗]
".
Definition v2_54 : string := " 3457 /3/ [◖ 1 ◗, ◖ 7 = -1 + 1·2^3 ◗, ◖ 27 = -1 + 7·2^2 ◗, ◖ 3457 =  1 + 27·2^7 ◗]
 3459 /3/ [◖ 1 ◗, ◖ 9 =  1 + 1·2^3 ◗, ◖ 1153 =  1 + 9·2^7 ◗, ◖ 3459 =  1153 + 1153·2^1 ◗]
 3461 /3/ [◖ 1 ◗, ◖ 5 =  1 + 1·2^2 ◗, ◖ 635 = -5 + 5·2^7 ◗, ◖ 3461 = -635 + 1·2^12 ◗]
 3463 /3/ [◖ 1 ◗, ◖ 7 = -1 + 1·2^3 ◗, ◖ 27 = -1 + 7·2^2 ◗, ◖ 3463 =  7 + 27·2^7 ◗]
 3465 /3/ [◖ 1 ◗, ◖ 7 = -1 + 1·2^3 ◗, ◖ 217 = -7 + 7·2^5 ◗, ◖ 3465 = -7 + 217·2^4 ◗]
 3467 /4/ [◖ 1 ◗, ◖ 7 = -1 + 1·2^3 ◗, ◖ 217 = -7 + 7·2^5 ◗, ◖ 867 = -1 + 217·2^2 ◗, ◖ 3467 = -1 + 867·2^2 ◗]
 3469 /4/ [◖ 1 ◗, ◖ 7 = -1 + 1·2^3 ◗, ◖ 217 = -7 + 7·2^5 ◗, ◖ 867 = -1 + 217·2^2 ◗, ◖ 3469 =  1 + 867·2^2 ◗]
 3471 /3/ [◖ 1 ◗, ◖ 7 = -1 + 1·2^3 ◗, ◖ 217 = -7 + 7·2^5 ◗, ◖ 3471 = -1 + 217·2^4 ◗]
 3473 /3/ [◖ 1 ◗, ◖ 7 = -1 + 1·2^3 ◗, ◖ 217 = -7 + 7·2^5 ◗, ◖ 3473 =  1 + 217·2^4 ◗]
 3475 /4/ [◖ 1 ◗, ◖ 7 = -1 + 1·2^3 ◗, ◖ 217 = -7 + 7·2^5 ◗, ◖ 869 =  1 + 217·2^2 ◗, ◖ 3475 = -1 + 869·2^2 ◗]
 3477 /4/ [◖ 1 ◗, ◖ 7 = -1 + 1·2^3 ◗, ◖ 217 = -7 + 7·2^5 ◗, ◖ 869 =  1 + 217·2^2 ◗, ◖ 3477 =  1 + 869·2^2 ◗]
 3479 /3/ [◖ 1 ◗, ◖ 7 = -1 + 1·2^3 ◗, ◖ 217 = -7 + 7·2^5 ◗, ◖ 3479 =  7 + 217·2^4 ◗]
 3481 /4/ [◖ 1 ◗, ◖ 7 = -1 + 1·2^3 ◗, ◖ 217 = -7 + 7·2^5 ◗, ◖ 435 =  1 + 217·2^1 ◗, ◖ 3481 =  1 + 435·2^3 ◗]
 3483 /3/ [◖ 1 ◗, ◖ 7 = -1 + 1·2^3 ◗, ◖ 27 = -1 + 7·2^2 ◗, ◖ 3483 =  27 + 27·2^7 ◗]
 3485 /4/ [◖ 1 ◗, ◖ 7 = -1 + 1·2^3 ◗, ◖ 27 = -1 + 7·2^2 ◗, ◖ 871 =  7 + 27·2^5 ◗, ◖ 3485 =  1 + 871·2^2 ◗]
 3487 /3/ [◖ 1 ◗, ◖ 31 = -1 + 1·2^5 ◗, ◖ 3999 =  31 + 31·2^7 ◗, ◖ 3487 =  3999 - 1·2^9 ◗]
 3489 /4/ [◖ 1 ◗, ◖ 7 = -1 + 1·2^3 ◗, ◖ 27 = -1 + 7·2^2 ◗, ◖ 109 =  1 + 27·2^2 ◗, ◖ 3489 =  1 + 109·2^5 ◗]
 3491 /4/ [◖ 1 ◗, ◖ 7 = -1 + 1·2^3 ◗, ◖ 55 = -1 + 7·2^3 ◗, ◖ 873 = -7 + 55·2^4 ◗, ◖ 3491 = -1 + 873·2^2 ◗]
 3493 /4/ [◖ 1 ◗, ◖ 7 = -1 + 1·2^3 ◗, ◖ 55 = -1 + 7·2^3 ◗, ◖ 873 = -7 + 55·2^4 ◗, ◖ 3493 =  1 + 873·2^2 ◗]
 3495 /4/ [◖ 1 ◗, ◖ 7 = -1 + 1·2^3 ◗, ◖ 111 = -1 + 7·2^4 ◗, ◖ 437 = -7 + 111·2^2 ◗, ◖ 3495 = -1 + 437·2^3 ◗]
 3497 /4/ [◖ 1 ◗, ◖ 7 = -1 + 1·2^3 ◗, ◖ 111 = -1 + 7·2^4 ◗, ◖ 437 = -7 + 111·2^2 ◗, ◖ 3497 =  1 + 437·2^3 ◗]
 3499 /4/ [◖ 1 ◗, ◖ 7 = -1 + 1·2^3 ◗, ◖ 217 = -7 + 7·2^5 ◗, ◖ 875 =  7 + 217·2^2 ◗, ◖ 3499 = -1 + 875·2^2 ◗]
 3501 /4/ [◖ 1 ◗, ◖ 7 = -1 + 1·2^3 ◗, ◖ 217 = -7 + 7·2^5 ◗, ◖ 875 =  7 + 217·2^2 ◗, ◖ 3501 =  1 + 875·2^2 ◗]
 3503 /3/ [◖ 1 ◗, ◖ 7 = -1 + 1·2^3 ◗, ◖ 113 =  1 + 7·2^4 ◗, ◖ 3503 = -113 + 113·2^5 ◗]
 3505 /4/ [◖ 1 ◗, ◖ 7 = -1 + 1·2^3 ◗, ◖ 55 = -1 + 7·2^3 ◗, ◖ 219 = -1 + 55·2^2 ◗, ◖ 3505 =  1 + 219·2^4 ◗]
 3507 /4/ [◖ 1 ◗, ◖ 7 = -1 + 1·2^3 ◗, ◖ 55 = -1 + 7·2^3 ◗, ◖ 1753 = -7 + 55·2^5 ◗, ◖ 3507 =  1 + 1753·2^1 ◗]
 3509 /4/ [◖ 1 ◗, ◖ 7 = -1 + 1·2^3 ◗, ◖ 27 = -1 + 7·2^2 ◗, ◖ 1755 =  27 + 27·2^6 ◗, ◖ 3509 = -1 + 1755·2^1 ◗]
 3511 /3/ [◖ 1 ◗, ◖ 9 =  1 + 1·2^3 ◗, ◖ 585 =  9 + 9·2^6 ◗, ◖ 3511 = -585 + 1·2^12 ◗]
 3513 /3/ [◖ 1 ◗, ◖ 7 = -1 + 1·2^3 ◗, ◖ 55 = -1 + 7·2^3 ◗, ◖ 3513 = -7 + 55·2^6 ◗]
 3515 /4/ [◖ 1 ◗, ◖ 7 = -1 + 1·2^3 ◗, ◖ 55 = -1 + 7·2^3 ◗, ◖ 879 = -1 + 55·2^4 ◗, ◖ 3515 = -1 + 879·2^2 ◗]
 3517 /4/ [◖ 1 ◗, ◖ 7 = -1 + 1·2^3 ◗, ◖ 55 = -1 + 7·2^3 ◗, ◖ 879 = -1 + 55·2^4 ◗, ◖ 3517 =  1 + 879·2^2 ◗]
 3519 /3/ [◖ 1 ◗, ◖ 7 = -1 + 1·2^3 ◗, ◖ 55 = -1 + 7·2^3 ◗, ◖ 3519 = -1 + 55·2^6 ◗]
".
Definition v2_55 : string := " 3521 /3/ [◖ 1 ◗, ◖ 7 = -1 + 1·2^3 ◗, ◖ 55 = -1 + 7·2^3 ◗, ◖ 3521 =  1 + 55·2^6 ◗]
 3523 /4/ [◖ 1 ◗, ◖ 7 = -1 + 1·2^3 ◗, ◖ 55 = -1 + 7·2^3 ◗, ◖ 881 =  1 + 55·2^4 ◗, ◖ 3523 = -1 + 881·2^2 ◗]
 3525 /4/ [◖ 1 ◗, ◖ 7 = -1 + 1·2^3 ◗, ◖ 55 = -1 + 7·2^3 ◗, ◖ 881 =  1 + 55·2^4 ◗, ◖ 3525 =  1 + 881·2^2 ◗]
 3527 /3/ [◖ 1 ◗, ◖ 7 = -1 + 1·2^3 ◗, ◖ 441 = -7 + 7·2^6 ◗, ◖ 3527 = -1 + 441·2^3 ◗]
 3529 /3/ [◖ 1 ◗, ◖ 7 = -1 + 1·2^3 ◗, ◖ 441 = -7 + 7·2^6 ◗, ◖ 3529 =  1 + 441·2^3 ◗]
 3531 /4/ [◖ 1 ◗, ◖ 7 = -1 + 1·2^3 ◗, ◖ 441 = -7 + 7·2^6 ◗, ◖ 883 =  1 + 441·2^1 ◗, ◖ 3531 = -1 + 883·2^2 ◗]
 3533 /4/ [◖ 1 ◗, ◖ 7 = -1 + 1·2^3 ◗, ◖ 441 = -7 + 7·2^6 ◗, ◖ 883 =  1 + 441·2^1 ◗, ◖ 3533 =  1 + 883·2^2 ◗]
 3535 /3/ [◖ 1 ◗, ◖ 17 =  1 + 1·2^4 ◗, ◖ 561 =  17 + 17·2^5 ◗, ◖ 3535 = -561 + 1·2^12 ◗]
 3537 /4/ [◖ 1 ◗, ◖ 7 = -1 + 1·2^3 ◗, ◖ 55 = -1 + 7·2^3 ◗, ◖ 221 =  1 + 55·2^2 ◗, ◖ 3537 =  1 + 221·2^4 ◗]
 3539 /4/ [◖ 1 ◗, ◖ 7 = -1 + 1·2^3 ◗, ◖ 111 = -1 + 7·2^4 ◗, ◖ 1769 = -7 + 111·2^4 ◗, ◖ 3539 =  1 + 1769·2^1 ◗]
 3541 /4/ [◖ 1 ◗, ◖ 7 = -1 + 1·2^3 ◗, ◖ 223 = -1 + 7·2^5 ◗, ◖ 885 = -7 + 223·2^2 ◗, ◖ 3541 =  1 + 885·2^2 ◗]
 3543 /4/ [◖ 1 ◗, ◖ 7 = -1 + 1·2^3 ◗, ◖ 111 = -1 + 7·2^4 ◗, ◖ 443 = -1 + 111·2^2 ◗, ◖ 3543 = -1 + 443·2^3 ◗]
 3545 /3/ [◖ 1 ◗, ◖ 7 = -1 + 1·2^3 ◗, ◖ 111 = -1 + 7·2^4 ◗, ◖ 3545 = -7 + 111·2^5 ◗]
 3547 /4/ [◖ 1 ◗, ◖ 7 = -1 + 1·2^3 ◗, ◖ 111 = -1 + 7·2^4 ◗, ◖ 887 = -1 + 111·2^3 ◗, ◖ 3547 = -1 + 887·2^2 ◗]
 3549 /3/ [◖ 1 ◗, ◖ 7 = -1 + 1·2^3 ◗, ◖ 889 = -7 + 7·2^7 ◗, ◖ 3549 = -7 + 889·2^2 ◗]
 3551 /3/ [◖ 1 ◗, ◖ 7 = -1 + 1·2^3 ◗, ◖ 111 = -1 + 7·2^4 ◗, ◖ 3551 = -1 + 111·2^5 ◗]
 3553 /3/ [◖ 1 ◗, ◖ 7 = -1 + 1·2^3 ◗, ◖ 111 = -1 + 7·2^4 ◗, ◖ 3553 =  1 + 111·2^5 ◗]
 3555 /3/ [◖ 1 ◗, ◖ 7 = -1 + 1·2^3 ◗, ◖ 889 = -7 + 7·2^7 ◗, ◖ 3555 = -1 + 889·2^2 ◗]
 3557 /3/ [◖ 1 ◗, ◖ 7 = -1 + 1·2^3 ◗, ◖ 889 = -7 + 7·2^7 ◗, ◖ 3557 =  1 + 889·2^2 ◗]
 3559 /3/ [◖ 1 ◗, ◖ 7 = -1 + 1·2^3 ◗, ◖ 111 = -1 + 7·2^4 ◗, ◖ 3559 =  7 + 111·2^5 ◗]
 3561 /3/ [◖ 1 ◗, ◖ 7 = -1 + 1·2^3 ◗, ◖ 223 = -1 + 7·2^5 ◗, ◖ 3561 = -7 + 223·2^4 ◗]
 3563 /3/ [◖ 1 ◗, ◖ 7 = -1 + 1·2^3 ◗, ◖ 889 = -7 + 7·2^7 ◗, ◖ 3563 =  7 + 889·2^2 ◗]
 3565 /4/ [◖ 1 ◗, ◖ 7 = -1 + 1·2^3 ◗, ◖ 223 = -1 + 7·2^5 ◗, ◖ 891 = -1 + 223·2^2 ◗, ◖ 3565 =  1 + 891·2^2 ◗]
 3567 /3/ [◖ 1 ◗, ◖ 7 = -1 + 1·2^3 ◗, ◖ 223 = -1 + 7·2^5 ◗, ◖ 3567 = -1 + 223·2^4 ◗]
 3569 /3/ [◖ 1 ◗, ◖ 7 = -1 + 1·2^3 ◗, ◖ 223 = -1 + 7·2^5 ◗, ◖ 3569 =  1 + 223·2^4 ◗]
 3571 /3/ [◖ 1 ◗, ◖ 7 = -1 + 1·2^3 ◗, ◖ 1785 = -7 + 7·2^8 ◗, ◖ 3571 =  1 + 1785·2^1 ◗]
 3573 /3/ [◖ 1 ◗, ◖ 7 = -1 + 1·2^3 ◗, ◖ 895 = -1 + 7·2^7 ◗, ◖ 3573 = -7 + 895·2^2 ◗]
 3575 /3/ [◖ 1 ◗, ◖ 7 = -1 + 1·2^3 ◗, ◖ 447 = -1 + 7·2^6 ◗, ◖ 3575 = -1 + 447·2^3 ◗]
 3577 /2/ [◖ 1 ◗, ◖ 7 = -1 + 1·2^3 ◗, ◖ 3577 = -7 + 7·2^9 ◗]
 3579 /3/ [◖ 1 ◗, ◖ 7 = -1 + 1·2^3 ◗, ◖ 895 = -1 + 7·2^7 ◗, ◖ 3579 = -1 + 895·2^2 ◗]
 3581 /3/ [◖ 1 ◗, ◖ 7 = -1 + 1·2^3 ◗, ◖ 895 = -1 + 7·2^7 ◗, ◖ 3581 =  1 + 895·2^2 ◗]
 3583 /2/ [◖ 1 ◗, ◖ 7 = -1 + 1·2^3 ◗, ◖ 3583 = -1 + 7·2^9 ◗]
".
Definition v2_56 : string := " 3585 /2/ [◖ 1 ◗, ◖ 7 = -1 + 1·2^3 ◗, ◖ 3585 =  1 + 7·2^9 ◗]
 3587 /3/ [◖ 1 ◗, ◖ 7 = -1 + 1·2^3 ◗, ◖ 897 =  1 + 7·2^7 ◗, ◖ 3587 = -1 + 897·2^2 ◗]
 3589 /3/ [◖ 1 ◗, ◖ 7 = -1 + 1·2^3 ◗, ◖ 897 =  1 + 7·2^7 ◗, ◖ 3589 =  1 + 897·2^2 ◗]
 3591 /2/ [◖ 1 ◗, ◖ 7 = -1 + 1·2^3 ◗, ◖ 3591 =  7 + 7·2^9 ◗]
 3593 /3/ [◖ 1 ◗, ◖ 7 = -1 + 1·2^3 ◗, ◖ 449 =  1 + 7·2^6 ◗, ◖ 3593 =  1 + 449·2^3 ◗]
 3595 /3/ [◖ 1 ◗, ◖ 7 = -1 + 1·2^3 ◗, ◖ 897 =  1 + 7·2^7 ◗, ◖ 3595 =  7 + 897·2^2 ◗]
 3597 /3/ [◖ 1 ◗, ◖ 7 = -1 + 1·2^3 ◗, ◖ 1799 =  7 + 7·2^8 ◗, ◖ 3597 = -1 + 1799·2^1 ◗]
 3599 /3/ [◖ 1 ◗, ◖ 7 = -1 + 1·2^3 ◗, ◖ 225 =  1 + 7·2^5 ◗, ◖ 3599 = -1 + 225·2^4 ◗]
 3601 /3/ [◖ 1 ◗, ◖ 7 = -1 + 1·2^3 ◗, ◖ 225 =  1 + 7·2^5 ◗, ◖ 3601 =  1 + 225·2^4 ◗]
 3603 /4/ [◖ 1 ◗, ◖ 7 = -1 + 1·2^3 ◗, ◖ 225 =  1 + 7·2^5 ◗, ◖ 901 =  1 + 225·2^2 ◗, ◖ 3603 = -1 + 901·2^2 ◗]
 3605 /3/ [◖ 1 ◗, ◖ 7 = -1 + 1·2^3 ◗, ◖ 903 =  7 + 7·2^7 ◗, ◖ 3605 = -7 + 903·2^2 ◗]
 3607 /3/ [◖ 1 ◗, ◖ 7 = -1 + 1·2^3 ◗, ◖ 225 =  1 + 7·2^5 ◗, ◖ 3607 =  7 + 225·2^4 ◗]
 3609 /3/ [◖ 1 ◗, ◖ 7 = -1 + 1·2^3 ◗, ◖ 113 =  1 + 7·2^4 ◗, ◖ 3609 = -7 + 113·2^5 ◗]
 3611 /3/ [◖ 1 ◗, ◖ 7 = -1 + 1·2^3 ◗, ◖ 903 =  7 + 7·2^7 ◗, ◖ 3611 = -1 + 903·2^2 ◗]
 3613 /3/ [◖ 1 ◗, ◖ 7 = -1 + 1·2^3 ◗, ◖ 903 =  7 + 7·2^7 ◗, ◖ 3613 =  1 + 903·2^2 ◗]
 3615 /3/ [◖ 1 ◗, ◖ 7 = -1 + 1·2^3 ◗, ◖ 113 =  1 + 7·2^4 ◗, ◖ 3615 = -1 + 113·2^5 ◗]
 3617 /3/ [◖ 1 ◗, ◖ 7 = -1 + 1·2^3 ◗, ◖ 113 =  1 + 7·2^4 ◗, ◖ 3617 =  1 + 113·2^5 ◗]
 3619 /3/ [◖ 1 ◗, ◖ 7 = -1 + 1·2^3 ◗, ◖ 903 =  7 + 7·2^7 ◗, ◖ 3619 =  7 + 903·2^2 ◗]
 3621 /4/ [◖ 1 ◗, ◖ 7 = -1 + 1·2^3 ◗, ◖ 113 =  1 + 7·2^4 ◗, ◖ 905 =  1 + 113·2^3 ◗, ◖ 3621 =  1 + 905·2^2 ◗]
 3623 /3/ [◖ 1 ◗, ◖ 7 = -1 + 1·2^3 ◗, ◖ 113 =  1 + 7·2^4 ◗, ◖ 3623 =  7 + 113·2^5 ◗]
 3625 /4/ [◖ 1 ◗, ◖ 7 = -1 + 1·2^3 ◗, ◖ 113 =  1 + 7·2^4 ◗, ◖ 453 =  1 + 113·2^2 ◗, ◖ 3625 =  1 + 453·2^3 ◗]
 3627 /4/ [◖ 1 ◗, ◖ 7 = -1 + 1·2^3 ◗, ◖ 225 =  1 + 7·2^5 ◗, ◖ 907 =  7 + 225·2^2 ◗, ◖ 3627 = -1 + 907·2^2 ◗]
 3629 /4/ [◖ 1 ◗, ◖ 7 = -1 + 1·2^3 ◗, ◖ 113 =  1 + 7·2^4 ◗, ◖ 1815 =  7 + 113·2^4 ◗, ◖ 3629 = -1 + 1815·2^1 ◗]
 3631 /3/ [◖ 1 ◗, ◖ 15 = -1 + 1·2^4 ◗, ◖ 465 = -15 + 15·2^5 ◗, ◖ 3631 = -465 + 1·2^12 ◗]
 3633 /4/ [◖ 1 ◗, ◖ 7 = -1 + 1·2^3 ◗, ◖ 57 =  1 + 7·2^3 ◗, ◖ 227 = -1 + 57·2^2 ◗, ◖ 3633 =  1 + 227·2^4 ◗]
 3635 /4/ [◖ 1 ◗, ◖ 7 = -1 + 1·2^3 ◗, ◖ 455 =  7 + 7·2^6 ◗, ◖ 909 = -1 + 455·2^1 ◗, ◖ 3635 = -1 + 909·2^2 ◗]
 3637 /4/ [◖ 1 ◗, ◖ 7 = -1 + 1·2^3 ◗, ◖ 455 =  7 + 7·2^6 ◗, ◖ 909 = -1 + 455·2^1 ◗, ◖ 3637 =  1 + 909·2^2 ◗]
 3639 /3/ [◖ 1 ◗, ◖ 7 = -1 + 1·2^3 ◗, ◖ 455 =  7 + 7·2^6 ◗, ◖ 3639 = -1 + 455·2^3 ◗]
 3641 /3/ [◖ 1 ◗, ◖ 7 = -1 + 1·2^3 ◗, ◖ 455 =  7 + 7·2^6 ◗, ◖ 3641 =  1 + 455·2^3 ◗]
 3643 /4/ [◖ 1 ◗, ◖ 7 = -1 + 1·2^3 ◗, ◖ 57 =  1 + 7·2^3 ◗, ◖ 911 = -1 + 57·2^4 ◗, ◖ 3643 = -1 + 911·2^2 ◗]
 3645 /4/ [◖ 1 ◗, ◖ 7 = -1 + 1·2^3 ◗, ◖ 57 =  1 + 7·2^3 ◗, ◖ 911 = -1 + 57·2^4 ◗, ◖ 3645 =  1 + 911·2^2 ◗]
 3647 /3/ [◖ 1 ◗, ◖ 7 = -1 + 1·2^3 ◗, ◖ 57 =  1 + 7·2^3 ◗, ◖ 3647 = -1 + 57·2^6 ◗]
".
Definition v2_57 : string := " 3649 /3/ [◖ 1 ◗, ◖ 7 = -1 + 1·2^3 ◗, ◖ 57 =  1 + 7·2^3 ◗, ◖ 3649 =  1 + 57·2^6 ◗]
 3651 /4/ [◖ 1 ◗, ◖ 7 = -1 + 1·2^3 ◗, ◖ 57 =  1 + 7·2^3 ◗, ◖ 913 =  1 + 57·2^4 ◗, ◖ 3651 = -1 + 913·2^2 ◗]
 3653 /4/ [◖ 1 ◗, ◖ 7 = -1 + 1·2^3 ◗, ◖ 57 =  1 + 7·2^3 ◗, ◖ 913 =  1 + 57·2^4 ◗, ◖ 3653 =  1 + 913·2^2 ◗]
 3655 /3/ [◖ 1 ◗, ◖ 7 = -1 + 1·2^3 ◗, ◖ 57 =  1 + 7·2^3 ◗, ◖ 3655 =  7 + 57·2^6 ◗]
 3657 /4/ [◖ 1 ◗, ◖ 7 = -1 + 1·2^3 ◗, ◖ 57 =  1 + 7·2^3 ◗, ◖ 457 =  1 + 57·2^3 ◗, ◖ 3657 =  1 + 457·2^3 ◗]
 3659 /4/ [◖ 1 ◗, ◖ 15 = -1 + 1·2^4 ◗, ◖ 465 = -15 + 15·2^5 ◗, ◖ 915 = -15 + 465·2^1 ◗, ◖ 3659 = -1 + 915·2^2 ◗]
 3661 /4/ [◖ 1 ◗, ◖ 7 = -1 + 1·2^3 ◗, ◖ 57 =  1 + 7·2^3 ◗, ◖ 1831 =  7 + 57·2^5 ◗, ◖ 3661 = -1 + 1831·2^1 ◗]
 3663 /3/ [◖ 1 ◗, ◖ 7 = -1 + 1·2^3 ◗, ◖ 111 = -1 + 7·2^4 ◗, ◖ 3663 =  111 + 111·2^5 ◗]
 3665 /4/ [◖ 1 ◗, ◖ 7 = -1 + 1·2^3 ◗, ◖ 57 =  1 + 7·2^3 ◗, ◖ 229 =  1 + 57·2^2 ◗, ◖ 3665 =  1 + 229·2^4 ◗]
 3667 /4/ [◖ 1 ◗, ◖ 7 = -1 + 1·2^3 ◗, ◖ 231 =  7 + 7·2^5 ◗, ◖ 917 = -7 + 231·2^2 ◗, ◖ 3667 = -1 + 917·2^2 ◗]
 3669 /4/ [◖ 1 ◗, ◖ 7 = -1 + 1·2^3 ◗, ◖ 231 =  7 + 7·2^5 ◗, ◖ 917 = -7 + 231·2^2 ◗, ◖ 3669 =  1 + 917·2^2 ◗]
 3671 /4/ [◖ 1 ◗, ◖ 7 = -1 + 1·2^3 ◗, ◖ 113 =  1 + 7·2^4 ◗, ◖ 459 =  7 + 113·2^2 ◗, ◖ 3671 = -1 + 459·2^3 ◗]
 3673 /4/ [◖ 1 ◗, ◖ 7 = -1 + 1·2^3 ◗, ◖ 113 =  1 + 7·2^4 ◗, ◖ 459 =  7 + 113·2^2 ◗, ◖ 3673 =  1 + 459·2^3 ◗]
 3675 /4/ [◖ 1 ◗, ◖ 7 = -1 + 1·2^3 ◗, ◖ 57 =  1 + 7·2^3 ◗, ◖ 919 =  7 + 57·2^4 ◗, ◖ 3675 = -1 + 919·2^2 ◗]
 3677 /4/ [◖ 1 ◗, ◖ 7 = -1 + 1·2^3 ◗, ◖ 57 =  1 + 7·2^3 ◗, ◖ 919 =  7 + 57·2^4 ◗, ◖ 3677 =  1 + 919·2^2 ◗]
 3679 /3/ [◖ 1 ◗, ◖ 33 =  1 + 1·2^5 ◗, ◖ 4191 = -33 + 33·2^7 ◗, ◖ 3679 =  4191 - 1·2^9 ◗]
 3681 /3/ [◖ 1 ◗, ◖ 31 = -1 + 1·2^5 ◗, ◖ 3937 = -31 + 31·2^7 ◗, ◖ 3681 =  3937 - 1·2^8 ◗]
 3683 /3/ [◖ 1 ◗, ◖ 7 = -1 + 1·2^3 ◗, ◖ 29 =  1 + 7·2^2 ◗, ◖ 3683 = -29 + 29·2^7 ◗]
 3685 /4/ [◖ 1 ◗, ◖ 7 = -1 + 1·2^3 ◗, ◖ 29 =  1 + 7·2^2 ◗, ◖ 921 = -7 + 29·2^5 ◗, ◖ 3685 =  1 + 921·2^2 ◗]
 3687 /4/ [◖ 1 ◗, ◖ 7 = -1 + 1·2^3 ◗, ◖ 231 =  7 + 7·2^5 ◗, ◖ 461 = -1 + 231·2^1 ◗, ◖ 3687 = -1 + 461·2^3 ◗]
 3689 /3/ [◖ 1 ◗, ◖ 7 = -1 + 1·2^3 ◗, ◖ 231 =  7 + 7·2^5 ◗, ◖ 3689 = -7 + 231·2^4 ◗]
 3691 /4/ [◖ 1 ◗, ◖ 7 = -1 + 1·2^3 ◗, ◖ 231 =  7 + 7·2^5 ◗, ◖ 923 = -1 + 231·2^2 ◗, ◖ 3691 = -1 + 923·2^2 ◗]
 3693 /4/ [◖ 1 ◗, ◖ 7 = -1 + 1·2^3 ◗, ◖ 231 =  7 + 7·2^5 ◗, ◖ 923 = -1 + 231·2^2 ◗, ◖ 3693 =  1 + 923·2^2 ◗]
 3695 /3/ [◖ 1 ◗, ◖ 7 = -1 + 1·2^3 ◗, ◖ 231 =  7 + 7·2^5 ◗, ◖ 3695 = -1 + 231·2^4 ◗]
 3697 /3/ [◖ 1 ◗, ◖ 7 = -1 + 1·2^3 ◗, ◖ 231 =  7 + 7·2^5 ◗, ◖ 3697 =  1 + 231·2^4 ◗]
 3699 /4/ [◖ 1 ◗, ◖ 7 = -1 + 1·2^3 ◗, ◖ 231 =  7 + 7·2^5 ◗, ◖ 925 =  1 + 231·2^2 ◗, ◖ 3699 = -1 + 925·2^2 ◗]
 3701 /4/ [◖ 1 ◗, ◖ 7 = -1 + 1·2^3 ◗, ◖ 231 =  7 + 7·2^5 ◗, ◖ 925 =  1 + 231·2^2 ◗, ◖ 3701 =  1 + 925·2^2 ◗]
 3703 /3/ [◖ 1 ◗, ◖ 7 = -1 + 1·2^3 ◗, ◖ 231 =  7 + 7·2^5 ◗, ◖ 3703 =  7 + 231·2^4 ◗]
 3705 /3/ [◖ 1 ◗, ◖ 7 = -1 + 1·2^3 ◗, ◖ 29 =  1 + 7·2^2 ◗, ◖ 3705 = -7 + 29·2^7 ◗]
 3707 /4/ [◖ 1 ◗, ◖ 7 = -1 + 1·2^3 ◗, ◖ 29 =  1 + 7·2^2 ◗, ◖ 927 = -1 + 29·2^5 ◗, ◖ 3707 = -1 + 927·2^2 ◗]
 3709 /3/ [◖ 1 ◗, ◖ 3 =  1 + 1·2^1 ◗, ◖ 387 =  3 + 3·2^7 ◗, ◖ 3709 = -387 + 1·2^12 ◗]
 3711 /3/ [◖ 1 ◗, ◖ 7 = -1 + 1·2^3 ◗, ◖ 29 =  1 + 7·2^2 ◗, ◖ 3711 = -1 + 29·2^7 ◗]
".
Definition v2_58 : string := " 3713 /3/ [◖ 1 ◗, ◖ 7 = -1 + 1·2^3 ◗, ◖ 29 =  1 + 7·2^2 ◗, ◖ 3713 =  1 + 29·2^7 ◗]
 3715 /3/ [◖ 1 ◗, ◖ 3 =  1 + 1·2^1 ◗, ◖ 381 = -3 + 3·2^7 ◗, ◖ 3715 = -381 + 1·2^12 ◗]
 3717 /4/ [◖ 1 ◗, ◖ 7 = -1 + 1·2^3 ◗, ◖ 29 =  1 + 7·2^2 ◗, ◖ 929 =  1 + 29·2^5 ◗, ◖ 3717 =  1 + 929·2^2 ◗]
 3719 /3/ [◖ 1 ◗, ◖ 15 = -1 + 1·2^4 ◗, ◖ 465 = -15 + 15·2^5 ◗, ◖ 3719 = -1 + 465·2^3 ◗]
 3721 /3/ [◖ 1 ◗, ◖ 15 = -1 + 1·2^4 ◗, ◖ 465 = -15 + 15·2^5 ◗, ◖ 3721 =  1 + 465·2^3 ◗]
 3723 /4/ [◖ 1 ◗, ◖ 15 = -1 + 1·2^4 ◗, ◖ 465 = -15 + 15·2^5 ◗, ◖ 931 =  1 + 465·2^1 ◗, ◖ 3723 = -1 + 931·2^2 ◗]
 3725 /4/ [◖ 1 ◗, ◖ 15 = -1 + 1·2^4 ◗, ◖ 465 = -15 + 15·2^5 ◗, ◖ 931 =  1 + 465·2^1 ◗, ◖ 3725 =  1 + 931·2^2 ◗]
 3727 /3/ [◖ 1 ◗, ◖ 15 = -1 + 1·2^4 ◗, ◖ 3855 =  15 + 15·2^8 ◗, ◖ 3727 =  3855 - 1·2^7 ◗]
 3729 /3/ [◖ 1 ◗, ◖ 7 = -1 + 1·2^3 ◗, ◖ 113 =  1 + 7·2^4 ◗, ◖ 3729 =  113 + 113·2^5 ◗]
 3731 /4/ [◖ 1 ◗, ◖ 15 = -1 + 1·2^4 ◗, ◖ 59 = -1 + 15·2^2 ◗, ◖ 1873 = -15 + 59·2^5 ◗, ◖ 3731 = -15 + 1873·2^1 ◗]
 3733 /4/ [◖ 1 ◗, ◖ 7 = -1 + 1·2^3 ◗, ◖ 29 =  1 + 7·2^2 ◗, ◖ 935 =  7 + 29·2^5 ◗, ◖ 3733 = -7 + 935·2^2 ◗]
 3735 /3/ [◖ 1 ◗, ◖ 15 = -1 + 1·2^4 ◗, ◖ 465 = -15 + 15·2^5 ◗, ◖ 3735 =  15 + 465·2^3 ◗]
 3737 /4/ [◖ 1 ◗, ◖ 15 = -1 + 1·2^4 ◗, ◖ 241 =  1 + 15·2^4 ◗, ◖ 467 = -15 + 241·2^1 ◗, ◖ 3737 =  1 + 467·2^3 ◗]
 3739 /4/ [◖ 1 ◗, ◖ 7 = -1 + 1·2^3 ◗, ◖ 29 =  1 + 7·2^2 ◗, ◖ 935 =  7 + 29·2^5 ◗, ◖ 3739 = -1 + 935·2^2 ◗]
 3741 /3/ [◖ 1 ◗, ◖ 7 = -1 + 1·2^3 ◗, ◖ 29 =  1 + 7·2^2 ◗, ◖ 3741 =  29 + 29·2^7 ◗]
 3743 /3/ [◖ 1 ◗, ◖ 31 = -1 + 1·2^5 ◗, ◖ 3999 =  31 + 31·2^7 ◗, ◖ 3743 =  3999 - 1·2^8 ◗]
 3745 /3/ [◖ 1 ◗, ◖ 33 =  1 + 1·2^5 ◗, ◖ 4257 =  33 + 33·2^7 ◗, ◖ 3745 =  4257 - 1·2^9 ◗]
 3747 /4/ [◖ 1 ◗, ◖ 15 = -1 + 1·2^4 ◗, ◖ 59 = -1 + 15·2^2 ◗, ◖ 1873 = -15 + 59·2^5 ◗, ◖ 3747 =  1 + 1873·2^1 ◗]
 3749 /4/ [◖ 1 ◗, ◖ 15 = -1 + 1·2^4 ◗, ◖ 119 = -1 + 15·2^3 ◗, ◖ 937 = -15 + 119·2^3 ◗, ◖ 3749 =  1 + 937·2^2 ◗]
 3751 /3/ [◖ 1 ◗, ◖ 15 = -1 + 1·2^4 ◗, ◖ 121 =  1 + 15·2^3 ◗, ◖ 3751 = -121 + 121·2^5 ◗]
 3753 /4/ [◖ 1 ◗, ◖ 7 = -1 + 1·2^3 ◗, ◖ 231 =  7 + 7·2^5 ◗, ◖ 469 =  7 + 231·2^1 ◗, ◖ 3753 =  1 + 469·2^3 ◗]
 3755 /4/ [◖ 1 ◗, ◖ 5 =  1 + 1·2^2 ◗, ◖ 85 =  5 + 5·2^4 ◗, ◖ 939 = -85 + 1·2^10 ◗, ◖ 3755 = -1 + 939·2^2 ◗]
 3757 /4/ [◖ 1 ◗, ◖ 5 =  1 + 1·2^2 ◗, ◖ 85 =  5 + 5·2^4 ◗, ◖ 939 = -85 + 1·2^10 ◗, ◖ 3757 =  1 + 939·2^2 ◗]
 3759 /4/ [◖ 1 ◗, ◖ 15 = -1 + 1·2^4 ◗, ◖ 59 = -1 + 15·2^2 ◗, ◖ 235 = -1 + 59·2^2 ◗, ◖ 3759 = -1 + 235·2^4 ◗]
 3761 /3/ [◖ 1 ◗, ◖ 15 = -1 + 1·2^4 ◗, ◖ 59 = -1 + 15·2^2 ◗, ◖ 3761 = -15 + 59·2^6 ◗]
 3763 /4/ [◖ 1 ◗, ◖ 15 = -1 + 1·2^4 ◗, ◖ 239 = -1 + 15·2^4 ◗, ◖ 941 = -15 + 239·2^2 ◗, ◖ 3763 = -1 + 941·2^2 ◗]
 3765 /3/ [◖ 1 ◗, ◖ 15 = -1 + 1·2^4 ◗, ◖ 945 = -15 + 15·2^6 ◗, ◖ 3765 = -15 + 945·2^2 ◗]
 3767 /4/ [◖ 1 ◗, ◖ 15 = -1 + 1·2^4 ◗, ◖ 59 = -1 + 15·2^2 ◗, ◖ 471 = -1 + 59·2^3 ◗, ◖ 3767 = -1 + 471·2^3 ◗]
 3769 /4/ [◖ 1 ◗, ◖ 15 = -1 + 1·2^4 ◗, ◖ 59 = -1 + 15·2^2 ◗, ◖ 471 = -1 + 59·2^3 ◗, ◖ 3769 =  1 + 471·2^3 ◗]
 3771 /3/ [◖ 1 ◗, ◖ 5 =  1 + 1·2^2 ◗, ◖ 325 =  5 + 5·2^6 ◗, ◖ 3771 = -325 + 1·2^12 ◗]
 3773 /4/ [◖ 1 ◗, ◖ 15 = -1 + 1·2^4 ◗, ◖ 59 = -1 + 15·2^2 ◗, ◖ 943 = -1 + 59·2^4 ◗, ◖ 3773 =  1 + 943·2^2 ◗]
 3775 /3/ [◖ 1 ◗, ◖ 15 = -1 + 1·2^4 ◗, ◖ 59 = -1 + 15·2^2 ◗, ◖ 3775 = -1 + 59·2^6 ◗]
".
Definition v2_59 : string := " 3777 /3/ [◖ 1 ◗, ◖ 15 = -1 + 1·2^4 ◗, ◖ 59 = -1 + 15·2^2 ◗, ◖ 3777 =  1 + 59·2^6 ◗]
 3779 /3/ [◖ 1 ◗, ◖ 15 = -1 + 1·2^4 ◗, ◖ 945 = -15 + 15·2^6 ◗, ◖ 3779 = -1 + 945·2^2 ◗]
 3781 /3/ [◖ 1 ◗, ◖ 15 = -1 + 1·2^4 ◗, ◖ 945 = -15 + 15·2^6 ◗, ◖ 3781 =  1 + 945·2^2 ◗]
 3783 /4/ [◖ 1 ◗, ◖ 15 = -1 + 1·2^4 ◗, ◖ 59 = -1 + 15·2^2 ◗, ◖ 473 =  1 + 59·2^3 ◗, ◖ 3783 = -1 + 473·2^3 ◗]
 3785 /4/ [◖ 1 ◗, ◖ 15 = -1 + 1·2^4 ◗, ◖ 59 = -1 + 15·2^2 ◗, ◖ 473 =  1 + 59·2^3 ◗, ◖ 3785 =  1 + 473·2^3 ◗]
 3787 /4/ [◖ 1 ◗, ◖ 15 = -1 + 1·2^4 ◗, ◖ 481 =  1 + 15·2^5 ◗, ◖ 947 = -15 + 481·2^1 ◗, ◖ 3787 = -1 + 947·2^2 ◗]
 3789 /4/ [◖ 1 ◗, ◖ 15 = -1 + 1·2^4 ◗, ◖ 481 =  1 + 15·2^5 ◗, ◖ 947 = -15 + 481·2^1 ◗, ◖ 3789 =  1 + 947·2^2 ◗]
 3791 /3/ [◖ 1 ◗, ◖ 15 = -1 + 1·2^4 ◗, ◖ 59 = -1 + 15·2^2 ◗, ◖ 3791 =  15 + 59·2^6 ◗]
 3793 /3/ [◖ 1 ◗, ◖ 15 = -1 + 1·2^4 ◗, ◖ 119 = -1 + 15·2^3 ◗, ◖ 3793 = -15 + 119·2^5 ◗]
 3795 /3/ [◖ 1 ◗, ◖ 15 = -1 + 1·2^4 ◗, ◖ 945 = -15 + 15·2^6 ◗, ◖ 3795 =  15 + 945·2^2 ◗]
 3797 /4/ [◖ 1 ◗, ◖ 15 = -1 + 1·2^4 ◗, ◖ 241 =  1 + 15·2^4 ◗, ◖ 949 = -15 + 241·2^2 ◗, ◖ 3797 =  1 + 949·2^2 ◗]
 3799 /3/ [◖ 1 ◗, ◖ 9 =  1 + 1·2^3 ◗, ◖ 297 =  9 + 9·2^5 ◗, ◖ 3799 = -297 + 1·2^12 ◗]
 3801 /3/ [◖ 1 ◗, ◖ 17 =  1 + 1·2^4 ◗, ◖ 543 = -1 + 17·2^5 ◗, ◖ 3801 = -543 + 543·2^3 ◗]
 3803 /4/ [◖ 1 ◗, ◖ 15 = -1 + 1·2^4 ◗, ◖ 119 = -1 + 15·2^3 ◗, ◖ 951 = -1 + 119·2^3 ◗, ◖ 3803 = -1 + 951·2^2 ◗]
 3805 /4/ [◖ 1 ◗, ◖ 15 = -1 + 1·2^4 ◗, ◖ 119 = -1 + 15·2^3 ◗, ◖ 951 = -1 + 119·2^3 ◗, ◖ 3805 =  1 + 951·2^2 ◗]
 3807 /3/ [◖ 1 ◗, ◖ 15 = -1 + 1·2^4 ◗, ◖ 119 = -1 + 15·2^3 ◗, ◖ 3807 = -1 + 119·2^5 ◗]
 3809 /3/ [◖ 1 ◗, ◖ 15 = -1 + 1·2^4 ◗, ◖ 119 = -1 + 15·2^3 ◗, ◖ 3809 =  1 + 119·2^5 ◗]
 3811 /3/ [◖ 1 ◗, ◖ 15 = -1 + 1·2^4 ◗, ◖ 1905 = -15 + 15·2^7 ◗, ◖ 3811 =  1 + 1905·2^1 ◗]
 3813 /4/ [◖ 1 ◗, ◖ 15 = -1 + 1·2^4 ◗, ◖ 119 = -1 + 15·2^3 ◗, ◖ 953 =  1 + 119·2^3 ◗, ◖ 3813 =  1 + 953·2^2 ◗]
 3815 /3/ [◖ 1 ◗, ◖ 17 =  1 + 1·2^4 ◗, ◖ 545 =  1 + 17·2^5 ◗, ◖ 3815 = -545 + 545·2^3 ◗]
 3817 /3/ [◖ 1 ◗, ◖ 15 = -1 + 1·2^4 ◗, ◖ 479 = -1 + 15·2^5 ◗, ◖ 3817 = -15 + 479·2^3 ◗]
 3819 /4/ [◖ 1 ◗, ◖ 15 = -1 + 1·2^4 ◗, ◖ 239 = -1 + 15·2^4 ◗, ◖ 955 = -1 + 239·2^2 ◗, ◖ 3819 = -1 + 955·2^2 ◗]
 3821 /3/ [◖ 1 ◗, ◖ 15 = -1 + 1·2^4 ◗, ◖ 959 = -1 + 15·2^6 ◗, ◖ 3821 = -15 + 959·2^2 ◗]
 3823 /3/ [◖ 1 ◗, ◖ 15 = -1 + 1·2^4 ◗, ◖ 239 = -1 + 15·2^4 ◗, ◖ 3823 = -1 + 239·2^4 ◗]
 3825 /2/ [◖ 1 ◗, ◖ 15 = -1 + 1·2^4 ◗, ◖ 3825 = -15 + 15·2^8 ◗]
 3827 /3/ [◖ 1 ◗, ◖ 15 = -1 + 1·2^4 ◗, ◖ 1921 =  1 + 15·2^7 ◗, ◖ 3827 = -15 + 1921·2^1 ◗]
 3829 /3/ [◖ 1 ◗, ◖ 15 = -1 + 1·2^4 ◗, ◖ 961 =  1 + 15·2^6 ◗, ◖ 3829 = -15 + 961·2^2 ◗]
 3831 /3/ [◖ 1 ◗, ◖ 15 = -1 + 1·2^4 ◗, ◖ 479 = -1 + 15·2^5 ◗, ◖ 3831 = -1 + 479·2^3 ◗]
 3833 /3/ [◖ 1 ◗, ◖ 15 = -1 + 1·2^4 ◗, ◖ 479 = -1 + 15·2^5 ◗, ◖ 3833 =  1 + 479·2^3 ◗]
 3835 /3/ [◖ 1 ◗, ◖ 15 = -1 + 1·2^4 ◗, ◖ 959 = -1 + 15·2^6 ◗, ◖ 3835 = -1 + 959·2^2 ◗]
 3837 /3/ [◖ 1 ◗, ◖ 15 = -1 + 1·2^4 ◗, ◖ 959 = -1 + 15·2^6 ◗, ◖ 3837 =  1 + 959·2^2 ◗]
 3839 /2/ [◖ 1 ◗, ◖ 15 = -1 + 1·2^4 ◗, ◖ 3839 = -1 + 15·2^8 ◗]
".
Definition v2_60 : string := " 3841 /2/ [◖ 1 ◗, ◖ 15 = -1 + 1·2^4 ◗, ◖ 3841 =  1 + 15·2^8 ◗]
 3843 /3/ [◖ 1 ◗, ◖ 15 = -1 + 1·2^4 ◗, ◖ 961 =  1 + 15·2^6 ◗, ◖ 3843 = -1 + 961·2^2 ◗]
 3845 /3/ [◖ 1 ◗, ◖ 15 = -1 + 1·2^4 ◗, ◖ 961 =  1 + 15·2^6 ◗, ◖ 3845 =  1 + 961·2^2 ◗]
 3847 /3/ [◖ 1 ◗, ◖ 15 = -1 + 1·2^4 ◗, ◖ 481 =  1 + 15·2^5 ◗, ◖ 3847 = -1 + 481·2^3 ◗]
 3849 /3/ [◖ 1 ◗, ◖ 15 = -1 + 1·2^4 ◗, ◖ 481 =  1 + 15·2^5 ◗, ◖ 3849 =  1 + 481·2^3 ◗]
 3851 /3/ [◖ 1 ◗, ◖ 15 = -1 + 1·2^4 ◗, ◖ 959 = -1 + 15·2^6 ◗, ◖ 3851 =  15 + 959·2^2 ◗]
 3853 /3/ [◖ 1 ◗, ◖ 15 = -1 + 1·2^4 ◗, ◖ 1919 = -1 + 15·2^7 ◗, ◖ 3853 =  15 + 1919·2^1 ◗]
 3855 /2/ [◖ 1 ◗, ◖ 15 = -1 + 1·2^4 ◗, ◖ 3855 =  15 + 15·2^8 ◗]
 3857 /3/ [◖ 1 ◗, ◖ 15 = -1 + 1·2^4 ◗, ◖ 241 =  1 + 15·2^4 ◗, ◖ 3857 =  1 + 241·2^4 ◗]
 3859 /3/ [◖ 1 ◗, ◖ 15 = -1 + 1·2^4 ◗, ◖ 961 =  1 + 15·2^6 ◗, ◖ 3859 =  15 + 961·2^2 ◗]
 3861 /4/ [◖ 1 ◗, ◖ 15 = -1 + 1·2^4 ◗, ◖ 241 =  1 + 15·2^4 ◗, ◖ 965 =  1 + 241·2^2 ◗, ◖ 3861 =  1 + 965·2^2 ◗]
 3863 /3/ [◖ 1 ◗, ◖ 15 = -1 + 1·2^4 ◗, ◖ 481 =  1 + 15·2^5 ◗, ◖ 3863 =  15 + 481·2^3 ◗]
 3865 /3/ [◖ 1 ◗, ◖ 7 = -1 + 1·2^3 ◗, ◖ 231 =  7 + 7·2^5 ◗, ◖ 3865 = -231 + 1·2^12 ◗]
 3867 /4/ [◖ 1 ◗, ◖ 15 = -1 + 1·2^4 ◗, ◖ 121 =  1 + 15·2^3 ◗, ◖ 967 = -1 + 121·2^3 ◗, ◖ 3867 = -1 + 967·2^2 ◗]
 3869 /3/ [◖ 1 ◗, ◖ 15 = -1 + 1·2^4 ◗, ◖ 1935 =  15 + 15·2^7 ◗, ◖ 3869 = -1 + 1935·2^1 ◗]
 3871 /3/ [◖ 1 ◗, ◖ 15 = -1 + 1·2^4 ◗, ◖ 121 =  1 + 15·2^3 ◗, ◖ 3871 = -1 + 121·2^5 ◗]
 3873 /3/ [◖ 1 ◗, ◖ 15 = -1 + 1·2^4 ◗, ◖ 121 =  1 + 15·2^3 ◗, ◖ 3873 =  1 + 121·2^5 ◗]
 3875 /3/ [◖ 1 ◗, ◖ 31 = -1 + 1·2^5 ◗, ◖ 1953 = -31 + 31·2^6 ◗, ◖ 3875 = -31 + 1953·2^1 ◗]
 3877 /4/ [◖ 1 ◗, ◖ 15 = -1 + 1·2^4 ◗, ◖ 121 =  1 + 15·2^3 ◗, ◖ 969 =  1 + 121·2^3 ◗, ◖ 3877 =  1 + 969·2^2 ◗]
 3879 /3/ [◖ 1 ◗, ◖ 7 = -1 + 1·2^3 ◗, ◖ 217 = -7 + 7·2^5 ◗, ◖ 3879 = -217 + 1·2^12 ◗]
 3881 /4/ [◖ 1 ◗, ◖ 15 = -1 + 1·2^4 ◗, ◖ 121 =  1 + 15·2^3 ◗, ◖ 485 =  1 + 121·2^2 ◗, ◖ 3881 =  1 + 485·2^3 ◗]
 3883 /4/ [◖ 1 ◗, ◖ 15 = -1 + 1·2^4 ◗, ◖ 239 = -1 + 15·2^4 ◗, ◖ 971 =  15 + 239·2^2 ◗, ◖ 3883 = -1 + 971·2^2 ◗]
 3885 /3/ [◖ 1 ◗, ◖ 15 = -1 + 1·2^4 ◗, ◖ 975 =  15 + 15·2^6 ◗, ◖ 3885 = -15 + 975·2^2 ◗]
 3887 /3/ [◖ 1 ◗, ◖ 15 = -1 + 1·2^4 ◗, ◖ 121 =  1 + 15·2^3 ◗, ◖ 3887 =  15 + 121·2^5 ◗]
 3889 /3/ [◖ 1 ◗, ◖ 15 = -1 + 1·2^4 ◗, ◖ 61 =  1 + 15·2^2 ◗, ◖ 3889 = -15 + 61·2^6 ◗]
 3891 /4/ [◖ 1 ◗, ◖ 15 = -1 + 1·2^4 ◗, ◖ 479 = -1 + 15·2^5 ◗, ◖ 973 =  15 + 479·2^1 ◗, ◖ 3891 = -1 + 973·2^2 ◗]
 3893 /4/ [◖ 1 ◗, ◖ 15 = -1 + 1·2^4 ◗, ◖ 479 = -1 + 15·2^5 ◗, ◖ 973 =  15 + 479·2^1 ◗, ◖ 3893 =  1 + 973·2^2 ◗]
 3895 /4/ [◖ 1 ◗, ◖ 15 = -1 + 1·2^4 ◗, ◖ 61 =  1 + 15·2^2 ◗, ◖ 487 = -1 + 61·2^3 ◗, ◖ 3895 = -1 + 487·2^3 ◗]
 3897 /4/ [◖ 1 ◗, ◖ 15 = -1 + 1·2^4 ◗, ◖ 61 =  1 + 15·2^2 ◗, ◖ 487 = -1 + 61·2^3 ◗, ◖ 3897 =  1 + 487·2^3 ◗]
 3899 /3/ [◖ 1 ◗, ◖ 15 = -1 + 1·2^4 ◗, ◖ 975 =  15 + 15·2^6 ◗, ◖ 3899 = -1 + 975·2^2 ◗]
 3901 /3/ [◖ 1 ◗, ◖ 15 = -1 + 1·2^4 ◗, ◖ 975 =  15 + 15·2^6 ◗, ◖ 3901 =  1 + 975·2^2 ◗]
 3903 /3/ [◖ 1 ◗, ◖ 15 = -1 + 1·2^4 ◗, ◖ 61 =  1 + 15·2^2 ◗, ◖ 3903 = -1 + 61·2^6 ◗]
".
Definition v2_61 : string := " 3905 /3/ [◖ 1 ◗, ◖ 15 = -1 + 1·2^4 ◗, ◖ 61 =  1 + 15·2^2 ◗, ◖ 3905 =  1 + 61·2^6 ◗]
 3907 /3/ [◖ 1 ◗, ◖ 31 = -1 + 1·2^5 ◗, ◖ 1953 = -31 + 31·2^6 ◗, ◖ 3907 =  1 + 1953·2^1 ◗]
 3909 /4/ [◖ 1 ◗, ◖ 15 = -1 + 1·2^4 ◗, ◖ 61 =  1 + 15·2^2 ◗, ◖ 977 =  1 + 61·2^4 ◗, ◖ 3909 =  1 + 977·2^2 ◗]
 3911 /4/ [◖ 1 ◗, ◖ 15 = -1 + 1·2^4 ◗, ◖ 61 =  1 + 15·2^2 ◗, ◖ 489 =  1 + 61·2^3 ◗, ◖ 3911 = -1 + 489·2^3 ◗]
 3913 /4/ [◖ 1 ◗, ◖ 15 = -1 + 1·2^4 ◗, ◖ 61 =  1 + 15·2^2 ◗, ◖ 489 =  1 + 61·2^3 ◗, ◖ 3913 =  1 + 489·2^3 ◗]
 3915 /3/ [◖ 1 ◗, ◖ 15 = -1 + 1·2^4 ◗, ◖ 975 =  15 + 15·2^6 ◗, ◖ 3915 =  15 + 975·2^2 ◗]
 3917 /4/ [◖ 1 ◗, ◖ 15 = -1 + 1·2^4 ◗, ◖ 241 =  1 + 15·2^4 ◗, ◖ 979 =  15 + 241·2^2 ◗, ◖ 3917 =  1 + 979·2^2 ◗]
 3919 /3/ [◖ 1 ◗, ◖ 15 = -1 + 1·2^4 ◗, ◖ 61 =  1 + 15·2^2 ◗, ◖ 3919 =  15 + 61·2^6 ◗]
 3921 /3/ [◖ 1 ◗, ◖ 31 = -1 + 1·2^5 ◗, ◖ 247 = -1 + 31·2^3 ◗, ◖ 3921 = -31 + 247·2^4 ◗]
 3923 /4/ [◖ 1 ◗, ◖ 31 = -1 + 1·2^5 ◗, ◖ 249 =  1 + 31·2^3 ◗, ◖ 1961 = -31 + 249·2^3 ◗, ◖ 3923 =  1 + 1961·2^1 ◗]
 3925 /4/ [◖ 1 ◗, ◖ 5 =  1 + 1·2^2 ◗, ◖ 85 =  5 + 5·2^4 ◗, ◖ 1963 = -85 + 1·2^11 ◗, ◖ 3925 = -1 + 1963·2^1 ◗]
 3927 /3/ [◖ 1 ◗, ◖ 15 = -1 + 1·2^4 ◗, ◖ 119 = -1 + 15·2^3 ◗, ◖ 3927 =  119 + 119·2^5 ◗]
 3929 /3/ [◖ 1 ◗, ◖ 31 = -1 + 1·2^5 ◗, ◖ 495 = -1 + 31·2^4 ◗, ◖ 3929 = -31 + 495·2^3 ◗]
 3931 /3/ [◖ 1 ◗, ◖ 5 =  1 + 1·2^2 ◗, ◖ 165 =  5 + 5·2^5 ◗, ◖ 3931 = -165 + 1·2^12 ◗]
 3933 /3/ [◖ 1 ◗, ◖ 31 = -1 + 1·2^5 ◗, ◖ 991 = -1 + 31·2^5 ◗, ◖ 3933 = -31 + 991·2^2 ◗]
 3935 /3/ [◖ 1 ◗, ◖ 31 = -1 + 1·2^5 ◗, ◖ 123 = -1 + 31·2^2 ◗, ◖ 3935 = -1 + 123·2^5 ◗]
 3937 /2/ [◖ 1 ◗, ◖ 31 = -1 + 1·2^5 ◗, ◖ 3937 = -31 + 31·2^7 ◗]
 3939 /3/ [◖ 1 ◗, ◖ 31 = -1 + 1·2^5 ◗, ◖ 1985 =  1 + 31·2^6 ◗, ◖ 3939 = -31 + 1985·2^1 ◗]
 3941 /3/ [◖ 1 ◗, ◖ 31 = -1 + 1·2^5 ◗, ◖ 993 =  1 + 31·2^5 ◗, ◖ 3941 = -31 + 993·2^2 ◗]
 3943 /3/ [◖ 1 ◗, ◖ 9 =  1 + 1·2^3 ◗, ◖ 153 =  9 + 9·2^4 ◗, ◖ 3943 = -153 + 1·2^12 ◗]
 3945 /3/ [◖ 1 ◗, ◖ 31 = -1 + 1·2^5 ◗, ◖ 497 =  1 + 31·2^4 ◗, ◖ 3945 = -31 + 497·2^3 ◗]
 3947 /4/ [◖ 1 ◗, ◖ 31 = -1 + 1·2^5 ◗, ◖ 247 = -1 + 31·2^3 ◗, ◖ 987 = -1 + 247·2^2 ◗, ◖ 3947 = -1 + 987·2^2 ◗]
 3949 /4/ [◖ 1 ◗, ◖ 31 = -1 + 1·2^5 ◗, ◖ 247 = -1 + 31·2^3 ◗, ◖ 987 = -1 + 247·2^2 ◗, ◖ 3949 =  1 + 987·2^2 ◗]
 3951 /3/ [◖ 1 ◗, ◖ 31 = -1 + 1·2^5 ◗, ◖ 247 = -1 + 31·2^3 ◗, ◖ 3951 = -1 + 247·2^4 ◗]
 3953 /3/ [◖ 1 ◗, ◖ 31 = -1 + 1·2^5 ◗, ◖ 247 = -1 + 31·2^3 ◗, ◖ 3953 =  1 + 247·2^4 ◗]
 3955 /4/ [◖ 1 ◗, ◖ 31 = -1 + 1·2^5 ◗, ◖ 247 = -1 + 31·2^3 ◗, ◖ 989 =  1 + 247·2^2 ◗, ◖ 3955 = -1 + 989·2^2 ◗]
 3957 /4/ [◖ 1 ◗, ◖ 31 = -1 + 1·2^5 ◗, ◖ 247 = -1 + 31·2^3 ◗, ◖ 989 =  1 + 247·2^2 ◗, ◖ 3957 =  1 + 989·2^2 ◗]
 3959 /3/ [◖ 1 ◗, ◖ 31 = -1 + 1·2^5 ◗, ◖ 495 = -1 + 31·2^4 ◗, ◖ 3959 = -1 + 495·2^3 ◗]
 3961 /3/ [◖ 1 ◗, ◖ 31 = -1 + 1·2^5 ◗, ◖ 495 = -1 + 31·2^4 ◗, ◖ 3961 =  1 + 495·2^3 ◗]
 3963 /3/ [◖ 1 ◗, ◖ 31 = -1 + 1·2^5 ◗, ◖ 991 = -1 + 31·2^5 ◗, ◖ 3963 = -1 + 991·2^2 ◗]
 3965 /3/ [◖ 1 ◗, ◖ 31 = -1 + 1·2^5 ◗, ◖ 991 = -1 + 31·2^5 ◗, ◖ 3965 =  1 + 991·2^2 ◗]
 3967 /2/ [◖ 1 ◗, ◖ 31 = -1 + 1·2^5 ◗, ◖ 3967 = -1 + 31·2^7 ◗]
".
Definition v2_62 : string := " 3969 /2/ [◖ 1 ◗, ◖ 31 = -1 + 1·2^5 ◗, ◖ 3969 =  1 + 31·2^7 ◗]
 3971 /3/ [◖ 1 ◗, ◖ 31 = -1 + 1·2^5 ◗, ◖ 993 =  1 + 31·2^5 ◗, ◖ 3971 = -1 + 993·2^2 ◗]
 3973 /3/ [◖ 1 ◗, ◖ 31 = -1 + 1·2^5 ◗, ◖ 993 =  1 + 31·2^5 ◗, ◖ 3973 =  1 + 993·2^2 ◗]
 3975 /3/ [◖ 1 ◗, ◖ 31 = -1 + 1·2^5 ◗, ◖ 497 =  1 + 31·2^4 ◗, ◖ 3975 = -1 + 497·2^3 ◗]
 3977 /3/ [◖ 1 ◗, ◖ 31 = -1 + 1·2^5 ◗, ◖ 497 =  1 + 31·2^4 ◗, ◖ 3977 =  1 + 497·2^3 ◗]
 3979 /4/ [◖ 1 ◗, ◖ 31 = -1 + 1·2^5 ◗, ◖ 249 =  1 + 31·2^3 ◗, ◖ 995 = -1 + 249·2^2 ◗, ◖ 3979 = -1 + 995·2^2 ◗]
 3981 /4/ [◖ 1 ◗, ◖ 31 = -1 + 1·2^5 ◗, ◖ 249 =  1 + 31·2^3 ◗, ◖ 995 = -1 + 249·2^2 ◗, ◖ 3981 =  1 + 995·2^2 ◗]
 3983 /3/ [◖ 1 ◗, ◖ 31 = -1 + 1·2^5 ◗, ◖ 249 =  1 + 31·2^3 ◗, ◖ 3983 = -1 + 249·2^4 ◗]
 3985 /3/ [◖ 1 ◗, ◖ 31 = -1 + 1·2^5 ◗, ◖ 249 =  1 + 31·2^3 ◗, ◖ 3985 =  1 + 249·2^4 ◗]
 3987 /4/ [◖ 1 ◗, ◖ 31 = -1 + 1·2^5 ◗, ◖ 249 =  1 + 31·2^3 ◗, ◖ 997 =  1 + 249·2^2 ◗, ◖ 3987 = -1 + 997·2^2 ◗]
 3989 /4/ [◖ 1 ◗, ◖ 31 = -1 + 1·2^5 ◗, ◖ 249 =  1 + 31·2^3 ◗, ◖ 997 =  1 + 249·2^2 ◗, ◖ 3989 =  1 + 997·2^2 ◗]
 3991 /3/ [◖ 1 ◗, ◖ 31 = -1 + 1·2^5 ◗, ◖ 495 = -1 + 31·2^4 ◗, ◖ 3991 =  31 + 495·2^3 ◗]
 3993 /3/ [◖ 1 ◗, ◖ 15 = -1 + 1·2^4 ◗, ◖ 121 =  1 + 15·2^3 ◗, ◖ 3993 =  121 + 121·2^5 ◗]
 3995 /3/ [◖ 1 ◗, ◖ 31 = -1 + 1·2^5 ◗, ◖ 991 = -1 + 31·2^5 ◗, ◖ 3995 =  31 + 991·2^2 ◗]
 3997 /3/ [◖ 1 ◗, ◖ 31 = -1 + 1·2^5 ◗, ◖ 1983 = -1 + 31·2^6 ◗, ◖ 3997 =  31 + 1983·2^1 ◗]
 3999 /2/ [◖ 1 ◗, ◖ 31 = -1 + 1·2^5 ◗, ◖ 3999 =  31 + 31·2^7 ◗]
 4001 /3/ [◖ 1 ◗, ◖ 31 = -1 + 1·2^5 ◗, ◖ 125 =  1 + 31·2^2 ◗, ◖ 4001 =  1 + 125·2^5 ◗]
 4003 /3/ [◖ 1 ◗, ◖ 31 = -1 + 1·2^5 ◗, ◖ 993 =  1 + 31·2^5 ◗, ◖ 4003 =  31 + 993·2^2 ◗]
 4005 /4/ [◖ 1 ◗, ◖ 31 = -1 + 1·2^5 ◗, ◖ 125 =  1 + 31·2^2 ◗, ◖ 1001 =  1 + 125·2^3 ◗, ◖ 4005 =  1 + 1001·2^2 ◗]
 4007 /3/ [◖ 1 ◗, ◖ 31 = -1 + 1·2^5 ◗, ◖ 497 =  1 + 31·2^4 ◗, ◖ 4007 =  31 + 497·2^3 ◗]
 4009 /4/ [◖ 1 ◗, ◖ 31 = -1 + 1·2^5 ◗, ◖ 125 =  1 + 31·2^2 ◗, ◖ 501 =  1 + 125·2^2 ◗, ◖ 4009 =  1 + 501·2^3 ◗]
 4011 /3/ [◖ 1 ◗, ◖ 5 =  1 + 1·2^2 ◗, ◖ 85 =  5 + 5·2^4 ◗, ◖ 4011 = -85 + 1·2^12 ◗]
 4013 /4/ [◖ 1 ◗, ◖ 63 = -1 + 1·2^6 ◗, ◖ 251 = -1 + 63·2^2 ◗, ◖ 1003 = -1 + 251·2^2 ◗, ◖ 4013 =  1 + 1003·2^2 ◗]
 4015 /3/ [◖ 1 ◗, ◖ 63 = -1 + 1·2^6 ◗, ◖ 251 = -1 + 63·2^2 ◗, ◖ 4015 = -1 + 251·2^4 ◗]
 4017 /3/ [◖ 1 ◗, ◖ 63 = -1 + 1·2^6 ◗, ◖ 251 = -1 + 63·2^2 ◗, ◖ 4017 =  1 + 251·2^4 ◗]
 4019 /4/ [◖ 1 ◗, ◖ 63 = -1 + 1·2^6 ◗, ◖ 251 = -1 + 63·2^2 ◗, ◖ 1005 =  1 + 251·2^2 ◗, ◖ 4019 = -1 + 1005·2^2 ◗]
 4021 /3/ [◖ 1 ◗, ◖ 5 =  1 + 1·2^2 ◗, ◖ 75 = -5 + 5·2^4 ◗, ◖ 4021 = -75 + 1·2^12 ◗]
 4023 /3/ [◖ 1 ◗, ◖ 63 = -1 + 1·2^6 ◗, ◖ 503 = -1 + 63·2^3 ◗, ◖ 4023 = -1 + 503·2^3 ◗]
 4025 /3/ [◖ 1 ◗, ◖ 63 = -1 + 1·2^6 ◗, ◖ 503 = -1 + 63·2^3 ◗, ◖ 4025 =  1 + 503·2^3 ◗]
 4027 /3/ [◖ 1 ◗, ◖ 63 = -1 + 1·2^6 ◗, ◖ 1007 = -1 + 63·2^4 ◗, ◖ 4027 = -1 + 1007·2^2 ◗]
 4029 /3/ [◖ 1 ◗, ◖ 63 = -1 + 1·2^6 ◗, ◖ 1007 = -1 + 63·2^4 ◗, ◖ 4029 =  1 + 1007·2^2 ◗]
 4031 /2/ [◖ 1 ◗, ◖ 63 = -1 + 1·2^6 ◗, ◖ 4031 = -1 + 63·2^6 ◗]
".
Definition v2_63 : string := " 4033 /2/ [◖ 1 ◗, ◖ 63 = -1 + 1·2^6 ◗, ◖ 4033 =  1 + 63·2^6 ◗]
 4035 /3/ [◖ 1 ◗, ◖ 63 = -1 + 1·2^6 ◗, ◖ 1009 =  1 + 63·2^4 ◗, ◖ 4035 = -1 + 1009·2^2 ◗]
 4037 /3/ [◖ 1 ◗, ◖ 63 = -1 + 1·2^6 ◗, ◖ 1009 =  1 + 63·2^4 ◗, ◖ 4037 =  1 + 1009·2^2 ◗]
 4039 /3/ [◖ 1 ◗, ◖ 63 = -1 + 1·2^6 ◗, ◖ 505 =  1 + 63·2^3 ◗, ◖ 4039 = -1 + 505·2^3 ◗]
 4041 /3/ [◖ 1 ◗, ◖ 63 = -1 + 1·2^6 ◗, ◖ 505 =  1 + 63·2^3 ◗, ◖ 4041 =  1 + 505·2^3 ◗]
 4043 /4/ [◖ 1 ◗, ◖ 63 = -1 + 1·2^6 ◗, ◖ 253 =  1 + 63·2^2 ◗, ◖ 1011 = -1 + 253·2^2 ◗, ◖ 4043 = -1 + 1011·2^2 ◗]
 4045 /3/ [◖ 1 ◗, ◖ 3 =  1 + 1·2^1 ◗, ◖ 51 =  3 + 3·2^4 ◗, ◖ 4045 = -51 + 1·2^12 ◗]
 4047 /3/ [◖ 1 ◗, ◖ 63 = -1 + 1·2^6 ◗, ◖ 253 =  1 + 63·2^2 ◗, ◖ 4047 = -1 + 253·2^4 ◗]
 4049 /3/ [◖ 1 ◗, ◖ 63 = -1 + 1·2^6 ◗, ◖ 253 =  1 + 63·2^2 ◗, ◖ 4049 =  1 + 253·2^4 ◗]
 4051 /3/ [◖ 1 ◗, ◖ 3 =  1 + 1·2^1 ◗, ◖ 45 = -3 + 3·2^4 ◗, ◖ 4051 = -45 + 1·2^12 ◗]
 4053 /4/ [◖ 1 ◗, ◖ 63 = -1 + 1·2^6 ◗, ◖ 253 =  1 + 63·2^2 ◗, ◖ 1013 =  1 + 253·2^2 ◗, ◖ 4053 =  1 + 1013·2^2 ◗]
 4055 /3/ [◖ 1 ◗, ◖ 127 = -1 + 1·2^7 ◗, ◖ 507 = -1 + 127·2^2 ◗, ◖ 4055 = -1 + 507·2^3 ◗]
 4057 /3/ [◖ 1 ◗, ◖ 127 = -1 + 1·2^7 ◗, ◖ 507 = -1 + 127·2^2 ◗, ◖ 4057 =  1 + 507·2^3 ◗]
 4059 /3/ [◖ 1 ◗, ◖ 127 = -1 + 1·2^7 ◗, ◖ 1015 = -1 + 127·2^3 ◗, ◖ 4059 = -1 + 1015·2^2 ◗]
 4061 /3/ [◖ 1 ◗, ◖ 127 = -1 + 1·2^7 ◗, ◖ 1015 = -1 + 127·2^3 ◗, ◖ 4061 =  1 + 1015·2^2 ◗]
 4063 /2/ [◖ 1 ◗, ◖ 127 = -1 + 1·2^7 ◗, ◖ 4063 = -1 + 127·2^5 ◗]
 4065 /2/ [◖ 1 ◗, ◖ 127 = -1 + 1·2^7 ◗, ◖ 4065 =  1 + 127·2^5 ◗]
 4067 /3/ [◖ 1 ◗, ◖ 127 = -1 + 1·2^7 ◗, ◖ 1017 =  1 + 127·2^3 ◗, ◖ 4067 = -1 + 1017·2^2 ◗]
 4069 /3/ [◖ 1 ◗, ◖ 127 = -1 + 1·2^7 ◗, ◖ 1017 =  1 + 127·2^3 ◗, ◖ 4069 =  1 + 1017·2^2 ◗]
 4071 /3/ [◖ 1 ◗, ◖ 127 = -1 + 1·2^7 ◗, ◖ 509 =  1 + 127·2^2 ◗, ◖ 4071 = -1 + 509·2^3 ◗]
 4073 /3/ [◖ 1 ◗, ◖ 127 = -1 + 1·2^7 ◗, ◖ 509 =  1 + 127·2^2 ◗, ◖ 4073 =  1 + 509·2^3 ◗]
 4075 /3/ [◖ 1 ◗, ◖ 255 = -1 + 1·2^8 ◗, ◖ 1019 = -1 + 255·2^2 ◗, ◖ 4075 = -1 + 1019·2^2 ◗]
 4077 /3/ [◖ 1 ◗, ◖ 255 = -1 + 1·2^8 ◗, ◖ 1019 = -1 + 255·2^2 ◗, ◖ 4077 =  1 + 1019·2^2 ◗]
 4079 /2/ [◖ 1 ◗, ◖ 255 = -1 + 1·2^8 ◗, ◖ 4079 = -1 + 255·2^4 ◗]
 4081 /2/ [◖ 1 ◗, ◖ 255 = -1 + 1·2^8 ◗, ◖ 4081 =  1 + 255·2^4 ◗]
 4083 /3/ [◖ 1 ◗, ◖ 255 = -1 + 1·2^8 ◗, ◖ 1021 =  1 + 255·2^2 ◗, ◖ 4083 = -1 + 1021·2^2 ◗]
 4085 /3/ [◖ 1 ◗, ◖ 255 = -1 + 1·2^8 ◗, ◖ 1021 =  1 + 255·2^2 ◗, ◖ 4085 =  1 + 1021·2^2 ◗]
 4087 /2/ [◖ 1 ◗, ◖ 511 = -1 + 1·2^9 ◗, ◖ 4087 = -1 + 511·2^3 ◗]
 4089 /2/ [◖ 1 ◗, ◖ 511 = -1 + 1·2^9 ◗, ◖ 4089 =  1 + 511·2^3 ◗]
 4091 /2/ [◖ 1 ◗, ◖ 1023 = -1 + 1·2^10 ◗, ◖ 4091 = -1 + 1023·2^2 ◗]
 4093 /2/ [◖ 1 ◗, ◖ 1023 = -1 + 1·2^10 ◗, ◖ 4093 =  1 + 1023·2^2 ◗]
 4095 /1/ [◖ 1 ◗, ◖ 4095 = -1 + 1·2^12 ◗]
".
(** limit-13_v2.log *)
Definition v2_literals : list string := (v2_0 :: v2_1 :: v2_2 :: v2_3 :: v2_4 :: v2_5 :: v2_6 :: v2_7 :: v2_8 :: v2_9 :: v2_10 :: v2_11 :: v2_12 :: v2_13 :: v2_14 :: v2_15 :: v2_16 :: v2_17 :: v2_18 :: v2_19 :: v2_20 :: v2_21 :: v2_22 :: v2_23 :: v2_24 :: v2_25 :: v2_26 :: v2_27 :: v2_28 :: v2_29 :: v2_30 :: v2_31 :: v2_32 :: v2_33 :: v2_34 :: v2_35 :: v2_36 :: v2_37 :: v2_38 :: v2_39 :: v2_40 :: v2_41 :: v2_42 :: v2_43 :: v2_44 :: v2_45 :: v2_46 :: v2_47 :: v2_48 :: v2_49 :: v2_50 :: v2_51 :: v2_52 :: v2_53 :: v2_54 :: v2_55 :: v2_56 :: v2_57 :: v2_58 :: v2_59 :: v2_60 :: v2_61 :: v2_62 :: v2_63 :: nil)%list.

