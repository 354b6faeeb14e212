(** Generated by tools/gen_asc_text.py from assets/asc-12.yaml. Do not edit. The text of the
    file, cut in front of every 32nd entry. *)
From Coq Require Import String List.
Local Open Scope string_scope.

Definition text_0 : string := "---
".
Definition text_1 : string := "1: []
3:
- l_pos: true
  l_idx: 0
  r_pos: true
  r_idx: 0
  r_shift: 1
5:
- l_pos: true
  l_idx: 0
  r_pos: true
  r_idx: 0
  r_shift: 2
7:
- l_pos: false
  l_idx: 0
  r_pos: true
  r_idx: 0
  r_shift: 3
9:
- l_pos: true
  l_idx: 0
  r_pos: true
  r_idx: 0
  r_shift: 3
11:
- l_pos: true
  l_idx: 0
  r_pos: true
  r_idx: 0
  r_shift: 1
- l_pos: false
  l_idx: 0
  r_pos: true
  r_idx: 1
  r_shift: 2
13:
- l_pos: true
  l_idx: 0
  r_pos: true
  r_idx: 0
  r_shift: 1
- l_pos: true
  l_idx: 0
  r_pos: true
  r_idx: 1
  r_shift: 2
15:
- l_pos: false
  l_idx: 0
  r_pos: true
  r_idx: 0
  r_shift: 4
17:
- l_pos: true
  l_idx: 0
  r_pos: true
  r_idx: 0
  r_shift: 4
19:
- l_pos: true
  l_idx: 0
  r_pos: true
  r_idx: 0
  r_shift: 2
- l_pos: false
  l_idx: 0
  r_pos: true
  r_idx: 1
  r_shift: 2
21:
- l_pos: true
  l_idx: 0
  r_pos: true
  r_idx: 0
  r_shift: 2
- l_pos: true
  l_idx: 0
  r_pos: true
  r_idx: 1
  r_shift: 2
23:
- l_pos: true
  l_idx: 0
  r_pos: true
  r_idx: 0
  r_shift: 1
- l_pos: false
  l_idx: 0
  r_pos: true
  r_idx: 1
  r_shift: 3
25:
- l_pos: true
  l_idx: 0
  r_pos: true
  r_idx: 0
  r_shift: 1
- l_pos: true
  l_idx: 0
  r_pos: true
  r_idx: 1
  r_shift: 3
27:
- l_pos: false
  l_idx: 0
  r_pos: true
  r_idx: 0
  r_shift: 3
- l_pos: false
  l_idx: 0
  r_pos: true
  r_idx: 1
  r_shift: 2
29:
- l_pos: false
  l_idx: 0
  r_pos: true
  r_idx: 0
  r_shift: 3
- l_pos: true
  l_idx: 0
  r_pos: true
  r_idx: 1
  r_shift: 2
31:
- l_pos: false
  l_idx: 0
  r_pos: true
  r_idx: 0
  r_shift: 5
33:
- l_pos: true
  l_idx: 0
  r_pos: true
  r_idx: 0
  r_shift: 5
35:
- l_pos: true
  l_idx: 0
  r_pos: true
  r_idx: 0
  r_shift: 3
- l_pos: false
  l_idx: 0
  r_pos: true
  r_idx: 1
  r_shift: 2
37:
- l_pos: true
  l_idx: 0
  r_pos: true
  r_idx: 0
  r_shift: 3
- l_pos: true
  l_idx: 0
  r_pos: true
  r_idx: 1
  r_shift: 2
39:
- l_pos: true
  l_idx: 0
  r_pos: true
  r_idx: 0
  r_shift: 2
- l_pos: false
  l_idx: 0
  r_pos: true
  r_idx: 1
  r_shift: 3
41:
- l_pos: true
  l_idx: 0
  r_pos: true
  r_idx: 0
  r_shift: 2
- l_pos: true
  l_idx: 0
  r_pos: true
  r_idx: 1
  r_shift: 3
43:
- l_pos: true
  l_idx: 0
  r_pos: true
  r_idx: 0
  r_shift: 1
- l_pos: false
  l_idx: 0
  r_pos: true
  r_idx: 1
  r_shift: 2
- l_pos: false
  l_idx: 0
  r_pos: true
  r_idx: 2
  r_shift: 2
45:
- l_pos: true
  l_idx: 0
  r_pos: true
  r_idx: 0
  r_shift: 1
- l_pos: false
  l_idx: 1
  r_pos: true
  r_idx: 1
  r_shift: 4
47:
- l_pos: true
  l_idx: 0
  r_pos: true
  r_idx: 0
  r_shift: 1
- l_pos: false
  l_idx: 0
  r_pos: true
  r_idx: 1
  r_shift: 4
49:
- l_pos: true
  l_idx: 0
  r_pos: true
  r_idx: 0
  r_shift: 1
- l_pos: true
  l_idx: 0
  r_pos: true
  r_idx: 1
  r_shift: 4
51:
- l_pos: true
  l_idx: 0
  r_pos: true
  r_idx: 0
  r_shift: 1
- l_pos: true
  l_idx: 1
  r_pos: true
  r_idx: 1
  r_shift: 4
53:
- l_pos: true
  l_idx: 0
  r_pos: true
  r_idx: 0
  r_shift: 1
- l_pos: true
  l_idx: 0
  r_pos: true
  r_idx: 1
  r_shift: 2
- l_pos: true
  l_idx: 0
  r_pos: true
  r_idx: 2
  r_shift: 2
55:
- l_pos: false
  l_idx: 0
  r_pos: true
  r_idx: 0
  r_shift: 3
- l_pos: false
  l_idx: 0
  r_pos: true
  r_idx: 1
  r_shift: 3
57:
- l_pos: false
  l_idx: 0
  r_pos: true
  r_idx: 0
  r_shift: 3
- l_pos: true
  l_idx: 0
  r_pos: true
  r_idx: 1
  r_shift: 3
59:
- l_pos: false
  l_idx: 0
  r_pos: true
  r_idx: 0
  r_shift: 4
- l_pos: false
  l_idx: 0
  r_pos: true
  r_idx: 1
  r_shift: 2
61:
- l_pos: false
  l_idx: 0
  r_pos: true
  r_idx: 0
  r_shift: 4
- l_pos: true
  l_idx: 0
  r_pos: true
  r_idx: 1
  r_shift: 2
63:
- l_pos: false
  l_idx: 0
  r_pos: true
  r_idx: 0
  r_shift: 6
".
Definition text_2 : string := "65:
- l_pos: true
  l_idx: 0
  r_pos: true
  r_idx: 0
  r_shift: 6
67:
- l_pos: true
  l_idx: 0
  r_pos: true
  r_idx: 0
  r_shift: 4
- l_pos: false
  l_idx: 0
  r_pos: true
  r_idx: 1
  r_shift: 2
69:
- l_pos: true
  l_idx: 0
  r_pos: true
  r_idx: 0
  r_shift: 4
- l_pos: true
  l_idx: 0
  r_pos: true
  r_idx: 1
  r_shift: 2
71:
- l_pos: true
  l_idx: 0
  r_pos: true
  r_idx: 0
  r_shift: 3
- l_pos: false
  l_idx: 0
  r_pos: true
  r_idx: 1
  r_shift: 3
73:
- l_pos: true
  l_idx: 0
  r_pos: true
  r_idx: 0
  r_shift: 3
- l_pos: true
  l_idx: 0
  r_pos: true
  r_idx: 1
  r_shift: 3
75:
- l_pos: true
  l_idx: 0
  r_pos: true
  r_idx: 0
  r_shift: 2
- l_pos: false
  l_idx: 1
  r_pos: true
  r_idx: 1
  r_shift: 4
77:
- l_pos: true
  l_idx: 0
  r_pos: true
  r_idx: 0
  r_shift: 2
- l_pos: false
  l_idx: 0
  r_pos: true
  r_idx: 1
  r_shift: 2
- l_pos: true
  l_idx: 0
  r_pos: true
  r_idx: 2
  r_shift: 2
79:
- l_pos: true
  l_idx: 0
  r_pos: true
  r_idx: 0
  r_shift: 2
- l_pos: false
  l_idx: 0
  r_pos: true
  r_idx: 1
  r_shift: 4
81:
- l_pos: true
  l_idx: 0
  r_pos: true
  r_idx: 0
  r_shift: 2
- l_pos: true
  l_idx: 0
  r_pos: true
  r_idx: 1
  r_shift: 4
83:
- l_pos: true
  l_idx: 0
  r_pos: true
  r_idx: 0
  r_shift: 2
- l_pos: true
  l_idx: 0
  r_pos: true
  r_idx: 1
  r_shift: 2
- l_pos: false
  l_idx: 0
  r_pos: true
  r_idx: 2
  r_shift: 2
85:
- l_pos: true
  l_idx: 0
  r_pos: true
  r_idx: 0
  r_shift: 2
- l_pos: true
  l_idx: 1
  r_pos: true
  r_idx: 1
  r_shift: 4
87:
- l_pos: true
  l_idx: 0
  r_pos: true
  r_idx: 0
  r_shift: 1
- l_pos: false
  l_idx: 0
  r_pos: true
  r_idx: 1
  r_shift: 2
- l_pos: false
  l_idx: 0
  r_pos: true
  r_idx: 2
  r_shift: 3
89:
- l_pos: true
  l_idx: 0
  r_pos: true
  r_idx: 0
  r_shift: 1
- l_pos: false
  l_idx: 0
  r_pos: true
  r_idx: 1
  r_shift: 2
- l_pos: true
  l_idx: 0
  r_pos: true
  r_idx: 2
  r_shift: 3
91:
- l_pos: true
  l_idx: 0
  r_pos: true
  r_idx: 0
  r_shift: 1
- l_pos: false
  l_idx: 0
  r_pos: true
  r_idx: 1
  r_shift: 3
- l_pos: false
  l_idx: 0
  r_pos: true
  r_idx: 2
  r_shift: 2
93:
- l_pos: true
  l_idx: 0
  r_pos: true
  r_idx: 0
  r_shift: 1
- l_pos: false
  l_idx: 1
  r_pos: true
  r_idx: 1
  r_shift: 5
95:
- l_pos: true
  l_idx: 0
  r_pos: true
  r_idx: 0
  r_shift: 1
- l_pos: false
  l_idx: 0
  r_pos: true
  r_idx: 1
  r_shift: 5
97:
- l_pos: true
  l_idx: 0
  r_pos: true
  r_idx: 0
  r_shift: 1
- l_pos: true
  l_idx: 0
  r_pos: true
  r_idx: 1
  r_shift: 5
99:
- l_pos: true
  l_idx: 0
  r_pos: true
  r_idx: 0
  r_shift: 1
- l_pos: true
  l_idx: 1
  r_pos: true
  r_idx: 1
  r_shift: 5
101:
- l_pos: true
  l_idx: 0
  r_pos: true
  r_idx: 0
  r_shift: 1
- l_pos: true
  l_idx: 0
  r_pos: true
  r_idx: 1
  r_shift: 3
- l_pos: true
  l_idx: 0
  r_pos: true
  r_idx: 2
  r_shift: 2
103:
- l_pos: true
  l_idx: 0
  r_pos: true
  r_idx: 0
  r_shift: 1
- l_pos: true
  l_idx: 0
  r_pos: true
  r_idx: 1
  r_shift: 2
- l_pos: false
  l_idx: 0
  r_pos: true
  r_idx: 2
  r_shift: 3
105:
- l_pos: false
  l_idx: 0
  r_pos: true
  r_idx: 0
  r_shift: 3
- l_pos: false
  l_idx: 1
  r_pos: true
  r_idx: 1
  r_shift: 4
107:
- l_pos: false
  l_idx: 0
  r_pos: true
  r_idx: 0
  r_shift: 3
- l_pos: false
  l_idx: 0
  r_pos: true
  r_idx: 1
  r_shift: 2
- l_pos: false
  l_idx: 0
  r_pos: true
  r_idx: 2
  r_shift: 2
109:
- l_pos: false
  l_idx: 0
  r_pos: true
  r_idx: 0
  r_shift: 3
- l_pos: false
  l_idx: 0
  r_pos: true
  r_idx: 1
  r_shift: 2
- l_pos: true
  l_idx: 0
  r_pos: true
  r_idx: 2
  r_shift: 2
111:
- l_pos: false
  l_idx: 0
  r_pos: true
  r_idx: 0
  r_shift: 3
- l_pos: false
  l_idx: 0
  r_pos: true
  r_idx: 1
  r_shift: 4
113:
- l_pos: false
  l_idx: 0
  r_pos: true
  r_idx: 0
  r_shift: 3
- l_pos: true
  l_idx: 0
  r_pos: true
  r_idx: 1
  r_shift: 4
115:
- l_pos: false
  l_idx: 0
  r_pos: true
  r_idx: 0
  r_shift: 3
- l_pos: true
  l_idx: 0
  r_pos: true
  r_idx: 1
  r_shift: 2
- l_pos: false
  l_idx: 0
  r_pos: true
  r_idx: 2
  r_shift: 2
117:
- l_pos: false
  l_idx: 0
  r_pos: true
  r_idx: 0
  r_shift: 3
- l_pos: true
  l_idx: 0
  r_pos: true
  r_idx: 1
  r_shift: 2
- l_pos: true
  l_idx: 0
  r_pos: true
  r_idx: 2
  r_shift: 2
119:
- l_pos: false
  l_idx: 0
  r_pos: true
  r_idx: 0
  r_shift: 4
- l_pos: false
  l_idx: 0
  r_pos: true
  r_idx: 1
  r_shift: 3
121:
- l_pos: false
  l_idx: 0
  r_pos: true
  r_idx: 0
  r_shift: 4
- l_pos: true
  l_idx: 0
  r_pos: true
  r_idx: 1
  r_shift: 3
123:
- l_pos: false
  l_idx: 0
  r_pos: true
  r_idx: 0
  r_shift: 5
- l_pos: false
  l_idx: 0
  r_pos: true
  r_idx: 1
  r_shift: 2
125:
- l_pos: false
  l_idx: 0
  r_pos: true
  r_idx: 0
  r_shift: 5
- l_pos: true
  l_idx: 0
  r_pos: true
  r_idx: 1
  r_shift: 2
127:
- l_pos: false
  l_idx: 0
  r_pos: true
  r_idx: 0
  r_shift: 7
".
Definition text_3 : string := "129:
- l_pos: true
  l_idx: 0
  r_pos: true
  r_idx: 0
  r_shift: 7
131:
- l_pos: true
  l_idx: 0
  r_pos: true
  r_idx: 0
  r_shift: 5
- l_pos: false
  l_idx: 0
  r_pos: true
  r_idx: 1
  r_shift: 2
133:
- l_pos: true
  l_idx: 0
  r_pos: true
  r_idx: 0
  r_shift: 5
- l_pos: true
  l_idx: 0
  r_pos: true
  r_idx: 1
  r_shift: 2
135:
- l_pos: true
  l_idx: 0
  r_pos: true
  r_idx: 0
  r_shift: 4
- l_pos: false
  l_idx: 0
  r_pos: true
  r_idx: 1
  r_shift: 3
137:
- l_pos: true
  l_idx: 0
  r_pos: true
  r_idx: 0
  r_shift: 4
- l_pos: true
  l_idx: 0
  r_pos: true
  r_idx: 1
  r_shift: 3
139:
- l_pos: true
  l_idx: 0
  r_pos: true
  r_idx: 0
  r_shift: 3
- l_pos: false
  l_idx: 0
  r_pos: true
  r_idx: 1
  r_shift: 2
- l_pos: false
  l_idx: 0
  r_pos: true
  r_idx: 2
  r_shift: 2
141:
- l_pos: true
  l_idx: 0
  r_pos: true
  r_idx: 0
  r_shift: 3
- l_pos: false
  l_idx: 0
  r_pos: true
  r_idx: 1
  r_shift: 2
- l_pos: true
  l_idx: 0
  r_pos: true
  r_idx: 2
  r_shift: 2
143:
- l_pos: true
  l_idx: 0
  r_pos: true
  r_idx: 0
  r_shift: 3
- l_pos: false
  l_idx: 0
  r_pos: true
  r_idx: 1
  r_shift: 4
145:
- l_pos: true
  l_idx: 0
  r_pos: true
  r_idx: 0
  r_shift: 3
- l_pos: true
  l_idx: 0
  r_pos: true
  r_idx: 1
  r_shift: 4
147:
- l_pos: true
  l_idx: 0
  r_pos: true
  r_idx: 0
  r_shift: 3
- l_pos: true
  l_idx: 0
  r_pos: true
  r_idx: 1
  r_shift: 2
- l_pos: false
  l_idx: 0
  r_pos: true
  r_idx: 2
  r_shift: 2
149:
- l_pos: true
  l_idx: 0
  r_pos: true
  r_idx: 0
  r_shift: 3
- l_pos: true
  l_idx: 0
  r_pos: true
  r_idx: 1
  r_shift: 2
- l_pos: true
  l_idx: 0
  r_pos: true
  r_idx: 2
  r_shift: 2
151:
- l_pos: true
  l_idx: 0
  r_pos: true
  r_idx: 0
  r_shift: 2
- l_pos: false
  l_idx: 0
  r_pos: true
  r_idx: 1
  r_shift: 2
- l_pos: false
  l_idx: 0
  r_pos: true
  r_idx: 2
  r_shift: 3
153:
- l_pos: true
  l_idx: 0
  r_pos: true
  r_idx: 0
  r_shift: 3
- l_pos: true
  l_idx: 1
  r_pos: true
  r_idx: 1
  r_shift: 4
155:
- l_pos: true
  l_idx: 0
  r_pos: true
  r_idx: 0
  r_shift: 2
- l_pos: false
  l_idx: 1
  r_pos: true
  r_idx: 1
  r_shift: 5
157:
- l_pos: true
  l_idx: 0
  r_pos: true
  r_idx: 0
  r_shift: 2
- l_pos: false
  l_idx: 0
  r_pos: true
  r_idx: 1
  r_shift: 3
- l_pos: true
  l_idx: 0
  r_pos: true
  r_idx: 2
  r_shift: 2
159:
- l_pos: true
  l_idx: 0
  r_pos: true
  r_idx: 0
  r_shift: 2
- l_pos: false
  l_idx: 0
  r_pos: true
  r_idx: 1
  r_shift: 5
161:
- l_pos: true
  l_idx: 0
  r_pos: true
  r_idx: 0
  r_shift: 2
- l_pos: true
  l_idx: 0
  r_pos: true
  r_idx: 1
  r_shift: 5
163:
- l_pos: true
  l_idx: 0
  r_pos: true
  r_idx: 0
  r_shift: 2
- l_pos: true
  l_idx: 0
  r_pos: true
  r_idx: 1
  r_shift: 3
- l_pos: false
  l_idx: 0
  r_pos: true
  r_idx: 2
  r_shift: 2
165:
- l_pos: true
  l_idx: 0
  r_pos: true
  r_idx: 0
  r_shift: 2
- l_pos: true
  l_idx: 1
  r_pos: true
  r_idx: 1
  r_shift: 5
167:
- l_pos: true
  l_idx: 0
  r_pos: true
  r_idx: 0
  r_shift: 2
- l_pos: true
  l_idx: 0
  r_pos: true
  r_idx: 1
  r_shift: 2
- l_pos: false
  l_idx: 0
  r_pos: true
  r_idx: 2
  r_shift: 3
169:
- l_pos: true
  l_idx: 0
  r_pos: true
  r_idx: 0
  r_shift: 2
- l_pos: true
  l_idx: 0
  r_pos: true
  r_idx: 1
  r_shift: 2
- l_pos: true
  l_idx: 0
  r_pos: true
  r_idx: 2
  r_shift: 3
171:
- l_pos: true
  l_idx: 0
  r_pos: true
  r_idx: 0
  r_shift: 2
- l_pos: true
  l_idx: 1
  r_pos: true
  r_idx: 1
  r_shift: 4
- l_pos: true
  l_idx: 0
  r_pos: true
  r_idx: 2
  r_shift: 1
173:
- l_pos: true
  l_idx: 0
  r_pos: true
  r_idx: 0
  r_shift: 1
- l_pos: false
  l_idx: 0
  r_pos: true
  r_idx: 1
  r_shift: 2
- l_pos: false
  l_idx: 1
  r_pos: true
  r_idx: 2
  r_shift: 4
175:
- l_pos: true
  l_idx: 0
  r_pos: true
  r_idx: 0
  r_shift: 1
- l_pos: false
  l_idx: 0
  r_pos: true
  r_idx: 1
  r_shift: 2
- l_pos: false
  l_idx: 0
  r_pos: true
  r_idx: 2
  r_shift: 4
177:
- l_pos: true
  l_idx: 0
  r_pos: true
  r_idx: 0
  r_shift: 1
- l_pos: false
  l_idx: 0
  r_pos: true
  r_idx: 1
  r_shift: 2
- l_pos: true
  l_idx: 0
  r_pos: true
  r_idx: 2
  r_shift: 4
179:
- l_pos: true
  l_idx: 0
  r_pos: true
  r_idx: 0
  r_shift: 1
- l_pos: false
  l_idx: 1
  r_pos: true
  r_idx: 1
  r_shift: 4
- l_pos: false
  l_idx: 0
  r_pos: true
  r_idx: 2
  r_shift: 2
181:
- l_pos: true
  l_idx: 0
  r_pos: true
  r_idx: 0
  r_shift: 1
- l_pos: false
  l_idx: 1
  r_pos: true
  r_idx: 1
  r_shift: 4
- l_pos: true
  l_idx: 0
  r_pos: true
  r_idx: 2
  r_shift: 2
183:
- l_pos: true
  l_idx: 0
  r_pos: true
  r_idx: 0
  r_shift: 1
- l_pos: false
  l_idx: 0
  r_pos: true
  r_idx: 1
  r_shift: 3
- l_pos: false
  l_idx: 0
  r_pos: true
  r_idx: 2
  r_shift: 3
185:
- l_pos: true
  l_idx: 0
  r_pos: true
  r_idx: 0
  r_shift: 1
- l_pos: false
  l_idx: 0
  r_pos: true
  r_idx: 1
  r_shift: 3
- l_pos: true
  l_idx: 0
  r_pos: true
  r_idx: 2
  r_shift: 3
187:
- l_pos: true
  l_idx: 0
  r_pos: true
  r_idx: 0
  r_shift: 1
- l_pos: false
  l_idx: 0
  r_pos: true
  r_idx: 1
  r_shift: 4
- l_pos: false
  l_idx: 0
  r_pos: true
  r_idx: 2
  r_shift: 2
189:
- l_pos: true
  l_idx: 0
  r_pos: true
  r_idx: 0
  r_shift: 1
- l_pos: false
  l_idx: 1
  r_pos: true
  r_idx: 1
  r_shift: 6
191:
- l_pos: true
  l_idx: 0
  r_pos: true
  r_idx: 0
  r_shift: 1
- l_pos: false
  l_idx: 0
  r_pos: true
  r_idx: 1
  r_shift: 6
".
Definition text_4 : string := "193:
- l_pos: true
  l_idx: 0
  r_pos: true
  r_idx: 0
  r_shift: 1
- l_pos: true
  l_idx: 0
  r_pos: true
  r_idx: 1
  r_shift: 6
195:
- l_pos: true
  l_idx: 0
  r_pos: true
  r_idx: 0
  r_shift: 1
- l_pos: true
  l_idx: 1
  r_pos: true
  r_idx: 1
  r_shift: 6
197:
- l_pos: true
  l_idx: 0
  r_pos: true
  r_idx: 0
  r_shift: 1
- l_pos: true
  l_idx: 0
  r_pos: true
  r_idx: 1
  r_shift: 4
- l_pos: true
  l_idx: 0
  r_pos: true
  r_idx: 2
  r_shift: 2
199:
- l_pos: true
  l_idx: 0
  r_pos: true
  r_idx: 0
  r_shift: 1
- l_pos: true
  l_idx: 0
  r_pos: true
  r_idx: 1
  r_shift: 3
- l_pos: false
  l_idx: 0
  r_pos: true
  r_idx: 2
  r_shift: 3
201:
- l_pos: true
  l_idx: 0
  r_pos: true
  r_idx: 0
  r_shift: 1
- l_pos: true
  l_idx: 0
  r_pos: true
  r_idx: 1
  r_shift: 3
- l_pos: true
  l_idx: 0
  r_pos: true
  r_idx: 2
  r_shift: 3
203:
- l_pos: true
  l_idx: 0
  r_pos: true
  r_idx: 0
  r_shift: 1
- l_pos: true
  l_idx: 1
  r_pos: true
  r_idx: 1
  r_shift: 4
- l_pos: false
  l_idx: 0
  r_pos: true
  r_idx: 2
  r_shift: 2
205:
- l_pos: true
  l_idx: 0
  r_pos: true
  r_idx: 0
  r_shift: 1
- l_pos: true
  l_idx: 1
  r_pos: true
  r_idx: 1
  r_shift: 4
- l_pos: true
  l_idx: 0
  r_pos: true
  r_idx: 2
  r_shift: 2
207:
- l_pos: true
  l_idx: 0
  r_pos: true
  r_idx: 0
  r_shift: 1
- l_pos: true
  l_idx: 0
  r_pos: true
  r_idx: 1
  r_shift: 2
- l_pos: false
  l_idx: 0
  r_pos: true
  r_idx: 2
  r_shift: 4
209:
- l_pos: true
  l_idx: 0
  r_pos: true
  r_idx: 0
  r_shift: 1
- l_pos: true
  l_idx: 0
  r_pos: true
  r_idx: 1
  r_shift: 2
- l_pos: true
  l_idx: 0
  r_pos: true
  r_idx: 2
  r_shift: 4
211:
- l_pos: false
  l_idx: 0
  r_pos: true
  r_idx: 0
  r_shift: 3
- l_pos: false
  l_idx: 1
  r_pos: true
  r_idx: 1
  r_shift: 4
- l_pos: true
  l_idx: 0
  r_pos: true
  r_idx: 2
  r_shift: 1
213:
- l_pos: true
  l_idx: 0
  r_pos: true
  r_idx: 0
  r_shift: 1
- l_pos: true
  l_idx: 1
  r_pos: true
  r_idx: 1
  r_shift: 3
- l_pos: false
  l_idx: 1
  r_pos: true
  r_idx: 2
  r_shift: 3
215:
- l_pos: false
  l_idx: 0
  r_pos: true
  r_idx: 0
  r_shift: 3
- l_pos: false
  l_idx: 0
  r_pos: true
  r_idx: 1
  r_shift: 2
- l_pos: false
  l_idx: 0
  r_pos: true
  r_idx: 2
  r_shift: 3
217:
- l_pos: false
  l_idx: 0
  r_pos: true
  r_idx: 0
  r_shift: 3
- l_pos: false
  l_idx: 1
  r_pos: true
  r_idx: 1
  r_shift: 5
219:
- l_pos: false
  l_idx: 0
  r_pos: true
  r_idx: 0
  r_shift: 3
- l_pos: false
  l_idx: 0
  r_pos: true
  r_idx: 1
  r_shift: 3
- l_pos: false
  l_idx: 0
  r_pos: true
  r_idx: 2
  r_shift: 2
221:
- l_pos: false
  l_idx: 0
  r_pos: true
  r_idx: 0
  r_shift: 3
- l_pos: false
  l_idx: 0
  r_pos: true
  r_idx: 1
  r_shift: 3
- l_pos: true
  l_idx: 0
  r_pos: true
  r_idx: 2
  r_shift: 2
223:
- l_pos: false
  l_idx: 0
  r_pos: true
  r_idx: 0
  r_shift: 3
- l_pos: false
  l_idx: 0
  r_pos: true
  r_idx: 1
  r_shift: 5
225:
- l_pos: false
  l_idx: 0
  r_pos: true
  r_idx: 0
  r_shift: 3
- l_pos: true
  l_idx: 0
  r_pos: true
  r_idx: 1
  r_shift: 5
227:
- l_pos: false
  l_idx: 0
  r_pos: true
  r_idx: 0
  r_shift: 3
- l_pos: true
  l_idx: 0
  r_pos: true
  r_idx: 1
  r_shift: 3
- l_pos: false
  l_idx: 0
  r_pos: true
  r_idx: 2
  r_shift: 2
229:
- l_pos: false
  l_idx: 0
  r_pos: true
  r_idx: 0
  r_shift: 3
- l_pos: true
  l_idx: 0
  r_pos: true
  r_idx: 1
  r_shift: 3
- l_pos: true
  l_idx: 0
  r_pos: true
  r_idx: 2
  r_shift: 2
231:
- l_pos: false
  l_idx: 0
  r_pos: true
  r_idx: 0
  r_shift: 3
- l_pos: true
  l_idx: 1
  r_pos: true
  r_idx: 1
  r_shift: 5
233:
- l_pos: false
  l_idx: 0
  r_pos: true
  r_idx: 0
  r_shift: 3
- l_pos: true
  l_idx: 0
  r_pos: true
  r_idx: 1
  r_shift: 2
- l_pos: true
  l_idx: 0
  r_pos: true
  r_idx: 2
  r_shift: 3
235:
- l_pos: false
  l_idx: 0
  r_pos: true
  r_idx: 0
  r_shift: 4
- l_pos: false
  l_idx: 0
  r_pos: true
  r_idx: 1
  r_shift: 2
- l_pos: false
  l_idx: 0
  r_pos: true
  r_idx: 2
  r_shift: 2
237:
- l_pos: false
  l_idx: 0
  r_pos: true
  r_idx: 0
  r_shift: 4
- l_pos: false
  l_idx: 0
  r_pos: true
  r_idx: 1
  r_shift: 2
- l_pos: true
  l_idx: 0
  r_pos: true
  r_idx: 2
  r_shift: 2
239:
- l_pos: false
  l_idx: 0
  r_pos: true
  r_idx: 0
  r_shift: 4
- l_pos: false
  l_idx: 0
  r_pos: true
  r_idx: 1
  r_shift: 4
241:
- l_pos: false
  l_idx: 0
  r_pos: true
  r_idx: 0
  r_shift: 4
- l_pos: true
  l_idx: 0
  r_pos: true
  r_idx: 1
  r_shift: 4
243:
- l_pos: false
  l_idx: 0
  r_pos: true
  r_idx: 0
  r_shift: 4
- l_pos: true
  l_idx: 0
  r_pos: true
  r_idx: 1
  r_shift: 2
- l_pos: false
  l_idx: 0
  r_pos: true
  r_idx: 2
  r_shift: 2
245:
- l_pos: false
  l_idx: 0
  r_pos: true
  r_idx: 0
  r_shift: 4
- l_pos: true
  l_idx: 0
  r_pos: true
  r_idx: 1
  r_shift: 2
- l_pos: true
  l_idx: 0
  r_pos: true
  r_idx: 2
  r_shift: 2
247:
- l_pos: false
  l_idx: 0
  r_pos: true
  r_idx: 0
  r_shift: 5
- l_pos: false
  l_idx: 0
  r_pos: true
  r_idx: 1
  r_shift: 3
249:
- l_pos: false
  l_idx: 0
  r_pos: true
  r_idx: 0
  r_shift: 5
- l_pos: true
  l_idx: 0
  r_pos: true
  r_idx: 1
  r_shift: 3
251:
- l_pos: false
  l_idx: 0
  r_pos: true
  r_idx: 0
  r_shift: 6
- l_pos: false
  l_idx: 0
  r_pos: true
  r_idx: 1
  r_shift: 2
253:
- l_pos: false
  l_idx: 0
  r_pos: true
  r_idx: 0
  r_shift: 6
- l_pos: true
  l_idx: 0
  r_pos: true
  r_idx: 1
  r_shift: 2
255:
- l_pos: false
  l_idx: 0
  r_pos: true
  r_idx: 0
  r_shift: 8
".
Definition text_5 : string := "257:
- l_pos: true
  l_idx: 0
  r_pos: true
  r_idx: 0
  r_shift: 8
259:
- l_pos: true
  l_idx: 0
  r_pos: true
  r_idx: 0
  r_shift: 6
- l_pos: false
  l_idx: 0
  r_pos: true
  r_idx: 1
  r_shift: 2
261:
- l_pos: true
  l_idx: 0
  r_pos: true
  r_idx: 0
  r_shift: 6
- l_pos: true
  l_idx: 0
  r_pos: true
  r_idx: 1
  r_shift: 2
263:
- l_pos: true
  l_idx: 0
  r_pos: true
  r_idx: 0
  r_shift: 5
- l_pos: false
  l_idx: 0
  r_pos: true
  r_idx: 1
  r_shift: 3
265:
- l_pos: true
  l_idx: 0
  r_pos: true
  r_idx: 0
  r_shift: 5
- l_pos: true
  l_idx: 0
  r_pos: true
  r_idx: 1
  r_shift: 3
267:
- l_pos: true
  l_idx: 0
  r_pos: true
  r_idx: 0
  r_shift: 4
- l_pos: false
  l_idx: 0
  r_pos: true
  r_idx: 1
  r_shift: 2
- l_pos: false
  l_idx: 0
  r_pos: true
  r_idx: 2
  r_shift: 2
269:
- l_pos: true
  l_idx: 0
  r_pos: true
  r_idx: 0
  r_shift: 4
- l_pos: false
  l_idx: 0
  r_pos: true
  r_idx: 1
  r_shift: 2
- l_pos: true
  l_idx: 0
  r_pos: true
  r_idx: 2
  r_shift: 2
271:
- l_pos: true
  l_idx: 0
  r_pos: true
  r_idx: 0
  r_shift: 4
- l_pos: false
  l_idx: 0
  r_pos: true
  r_idx: 1
  r_shift: 4
273:
- l_pos: true
  l_idx: 0
  r_pos: true
  r_idx: 0
  r_shift: 4
- l_pos: true
  l_idx: 0
  r_pos: true
  r_idx: 1
  r_shift: 4
275:
- l_pos: true
  l_idx: 0
  r_pos: true
  r_idx: 0
  r_shift: 4
- l_pos: true
  l_idx: 0
  r_pos: true
  r_idx: 1
  r_shift: 2
- l_pos: false
  l_idx: 0
  r_pos: true
  r_idx: 2
  r_shift: 2
277:
- l_pos: true
  l_idx: 0
  r_pos: true
  r_idx: 0
  r_shift: 4
- l_pos: true
  l_idx: 0
  r_pos: true
  r_idx: 1
  r_shift: 2
- l_pos: true
  l_idx: 0
  r_pos: true
  r_idx: 2
  r_shift: 2
279:
- l_pos: true
  l_idx: 0
  r_pos: true
  r_idx: 0
  r_shift: 3
- l_pos: false
  l_idx: 1
  r_pos: true
  r_idx: 1
  r_shift: 5
281:
- l_pos: true
  l_idx: 0
  r_pos: true
  r_idx: 0
  r_shift: 3
- l_pos: false
  l_idx: 0
  r_pos: true
  r_idx: 1
  r_shift: 2
- l_pos: true
  l_idx: 0
  r_pos: true
  r_idx: 2
  r_shift: 3
283:
- l_pos: true
  l_idx: 0
  r_pos: true
  r_idx: 0
  r_shift: 3
- l_pos: false
  l_idx: 0
  r_pos: true
  r_idx: 1
  r_shift: 3
- l_pos: false
  l_idx: 0
  r_pos: true
  r_idx: 2
  r_shift: 2
285:
- l_pos: true
  l_idx: 0
  r_pos: true
  r_idx: 0
  r_shift: 3
- l_pos: false
  l_idx: 0
  r_pos: true
  r_idx: 1
  r_shift: 3
- l_pos: true
  l_idx: 0
  r_pos: true
  r_idx: 2
  r_shift: 2
287:
- l_pos: true
  l_idx: 0
  r_pos: true
  r_idx: 0
  r_shift: 3
- l_pos: false
  l_idx: 0
  r_pos: true
  r_idx: 1
  r_shift: 5
289:
- l_pos: true
  l_idx: 0
  r_pos: true
  r_idx: 0
  r_shift: 3
- l_pos: true
  l_idx: 0
  r_pos: true
  r_idx: 1
  r_shift: 5
291:
- l_pos: true
  l_idx: 0
  r_pos: true
  r_idx: 0
  r_shift: 3
- l_pos: true
  l_idx: 0
  r_pos: true
  r_idx: 1
  r_shift: 3
- l_pos: false
  l_idx: 0
  r_pos: true
  r_idx: 2
  r_shift: 2
293:
- l_pos: true
  l_idx: 0
  r_pos: true
  r_idx: 0
  r_shift: 3
- l_pos: true
  l_idx: 0
  r_pos: true
  r_idx: 1
  r_shift: 3
- l_pos: true
  l_idx: 0
  r_pos: true
  r_idx: 2
  r_shift: 2
295:
- l_pos: true
  l_idx: 0
  r_pos: true
  r_idx: 0
  r_shift: 3
- l_pos: true
  l_idx: 0
  r_pos: true
  r_idx: 1
  r_shift: 2
- l_pos: false
  l_idx: 0
  r_pos: true
  r_idx: 2
  r_shift: 3
297:
- l_pos: true
  l_idx: 0
  r_pos: true
  r_idx: 0
  r_shift: 3
- l_pos: true
  l_idx: 1
  r_pos: true
  r_idx: 1
  r_shift: 5
299:
- l_pos: true
  l_idx: 0
  r_pos: true
  r_idx: 0
  r_shift: 2
- l_pos: false
  l_idx: 1
  r_pos: true
  r_idx: 1
  r_shift: 4
- l_pos: false
  l_idx: 0
  r_pos: true
  r_idx: 2
  r_shift: 2
301:
- l_pos: true
  l_idx: 0
  r_pos: true
  r_idx: 0
  r_shift: 2
- l_pos: false
  l_idx: 1
  r_pos: true
  r_idx: 1
  r_shift: 4
- l_pos: true
  l_idx: 0
  r_pos: true
  r_idx: 2
  r_shift: 2
303:
- l_pos: true
  l_idx: 0
  r_pos: true
  r_idx: 0
  r_shift: 2
- l_pos: false
  l_idx: 0
  r_pos: true
  r_idx: 1
  r_shift: 2
- l_pos: false
  l_idx: 0
  r_pos: true
  r_idx: 2
  r_shift: 4
305:
- l_pos: true
  l_idx: 0
  r_pos: true
  r_idx: 0
  r_shift: 2
- l_pos: false
  l_idx: 0
  r_pos: true
  r_idx: 1
  r_shift: 2
- l_pos: true
  l_idx: 0
  r_pos: true
  r_idx: 2
  r_shift: 4
307:
- l_pos: true
  l_idx: 0
  r_pos: true
  r_idx: 0
  r_shift: 3
- l_pos: true
  l_idx: 1
  r_pos: true
  r_idx: 1
  r_shift: 4
- l_pos: true
  l_idx: 0
  r_pos: true
  r_idx: 2
  r_shift: 1
309:
- l_pos: true
  l_idx: 0
  r_pos: true
  r_idx: 0
  r_shift: 2
- l_pos: false
  l_idx: 1
  r_pos: true
  r_idx: 1
  r_shift: 5
- l_pos: false
  l_idx: 0
  r_pos: true
  r_idx: 2
  r_shift: 1
311:
- l_pos: true
  l_idx: 0
  r_pos: true
  r_idx: 0
  r_shift: 2
- l_pos: false
  l_idx: 0
  r_pos: true
  r_idx: 1
  r_shift: 3
- l_pos: false
  l_idx: 0
  r_pos: true
  r_idx: 2
  r_shift: 3
313:
- l_pos: true
  l_idx: 0
  r_pos: true
  r_idx: 0
  r_shift: 2
- l_pos: false
  l_idx: 0
  r_pos: true
  r_idx: 1
  r_shift: 3
- l_pos: true
  l_idx: 0
  r_pos: true
  r_idx: 2
  r_shift: 3
315:
- l_pos: true
  l_idx: 0
  r_pos: true
  r_idx: 0
  r_shift: 2
- l_pos: false
  l_idx: 1
  r_pos: true
  r_idx: 1
  r_shift: 6
317:
- l_pos: true
  l_idx: 0
  r_pos: true
  r_idx: 0
  r_shift: 2
- l_pos: false
  l_idx: 0
  r_pos: true
  r_idx: 1
  r_shift: 4
- l_pos: true
  l_idx: 0
  r_pos: true
  r_idx: 2
  r_shift: 2
319:
- l_pos: true
  l_idx: 0
  r_pos: true
  r_idx: 0
  r_shift: 2
- l_pos: false
  l_idx: 0
  r_pos: true
  r_idx: 1
  r_shift: 6
".
Definition text_6 : string := "321:
- l_pos: true
  l_idx: 0
  r_pos: true
  r_idx: 0
  r_shift: 2
- l_pos: true
  l_idx: 0
  r_pos: true
  r_idx: 1
  r_shift: 6
323:
- l_pos: true
  l_idx: 0
  r_pos: true
  r_idx: 0
  r_shift: 2
- l_pos: true
  l_idx: 0
  r_pos: true
  r_idx: 1
  r_shift: 4
- l_pos: false
  l_idx: 0
  r_pos: true
  r_idx: 2
  r_shift: 2
325:
- l_pos: true
  l_idx: 0
  r_pos: true
  r_idx: 0
  r_shift: 2
- l_pos: true
  l_idx: 1
  r_pos: true
  r_idx: 1
  r_shift: 6
327:
- l_pos: true
  l_idx: 0
  r_pos: true
  r_idx: 0
  r_shift: 2
- l_pos: true
  l_idx: 0
  r_pos: true
  r_idx: 1
  r_shift: 3
- l_pos: false
  l_idx: 0
  r_pos: true
  r_idx: 2
  r_shift: 3
329:
- l_pos: true
  l_idx: 0
  r_pos: true
  r_idx: 0
  r_shift: 2
- l_pos: true
  l_idx: 0
  r_pos: true
  r_idx: 1
  r_shift: 3
- l_pos: true
  l_idx: 0
  r_pos: true
  r_idx: 2
  r_shift: 3
331:
- l_pos: true
  l_idx: 0
  r_pos: true
  r_idx: 0
  r_shift: 2
- l_pos: true
  l_idx: 1
  r_pos: true
  r_idx: 1
  r_shift: 5
- l_pos: true
  l_idx: 0
  r_pos: true
  r_idx: 2
  r_shift: 1
333:
- l_pos: true
  l_idx: 0
  r_pos: true
  r_idx: 0
  r_shift: 1
- l_pos: false
  l_idx: 1
  r_pos: true
  r_idx: 1
  r_shift: 3
- l_pos: false
  l_idx: 1
  r_pos: true
  r_idx: 2
  r_shift: 4
335:
- l_pos: true
  l_idx: 0
  r_pos: true
  r_idx: 0
  r_shift: 2
- l_pos: true
  l_idx: 0
  r_pos: true
  r_idx: 1
  r_shift: 2
- l_pos: false
  l_idx: 0
  r_pos: true
  r_idx: 2
  r_shift: 4
337:
- l_pos: true
  l_idx: 0
  r_pos: true
  r_idx: 0
  r_shift: 2
- l_pos: true
  l_idx: 0
  r_pos: true
  r_idx: 1
  r_shift: 2
- l_pos: true
  l_idx: 0
  r_pos: true
  r_idx: 2
  r_shift: 4
339:
- l_pos: true
  l_idx: 0
  r_pos: true
  r_idx: 0
  r_shift: 2
- l_pos: true
  l_idx: 1
  r_pos: true
  r_idx: 1
  r_shift: 4
- l_pos: false
  l_idx: 0
  r_pos: true
  r_idx: 2
  r_shift: 2
341:
- l_pos: true
  l_idx: 0
  r_pos: true
  r_idx: 0
  r_shift: 2
- l_pos: true
  l_idx: 1
  r_pos: true
  r_idx: 1
  r_shift: 4
- l_pos: true
  l_idx: 0
  r_pos: true
  r_idx: 2
  r_shift: 2
343:
- l_pos: true
  l_idx: 0
  r_pos: true
  r_idx: 0
  r_shift: 3
- l_pos: true
  l_idx: 1
  r_pos: true
  r_idx: 0
  r_shift: 1
- l_pos: false
  l_idx: 1
  r_pos: true
  r_idx: 2
  r_shift: 5
345:
- l_pos: true
  l_idx: 0
  r_pos: true
  r_idx: 0
  r_shift: 2
- l_pos: true
  l_idx: 1
  r_pos: true
  r_idx: 1
  r_shift: 4
- l_pos: true
  l_idx: 1
  r_pos: true
  r_idx: 2
  r_shift: 2
347:
- l_pos: true
  l_idx: 0
  r_pos: true
  r_idx: 0
  r_shift: 2
- l_pos: true
  l_idx: 0
  r_pos: true
  r_idx: 1
  r_shift: 1
- l_pos: false
  l_idx: 1
  r_pos: true
  r_idx: 2
  r_shift: 5
349:
- l_pos: true
  l_idx: 0
  r_pos: true
  r_idx: 0
  r_shift: 1
- l_pos: false
  l_idx: 0
  r_pos: true
  r_idx: 1
  r_shift: 2
- l_pos: false
  l_idx: 1
  r_pos: true
  r_idx: 2
  r_shift: 5
351:
- l_pos: true
  l_idx: 0
  r_pos: true
  r_idx: 0
  r_shift: 1
- l_pos: false
  l_idx: 0
  r_pos: true
  r_idx: 1
  r_shift: 2
- l_pos: false
  l_idx: 0
  r_pos: true
  r_idx: 2
  r_shift: 5
353:
- l_pos: true
  l_idx: 0
  r_pos: true
  r_idx: 0
  r_shift: 1
- l_pos: false
  l_idx: 0
  r_pos: true
  r_idx: 1
  r_shift: 2
- l_pos: true
  l_idx: 0
  r_pos: true
  r_idx: 2
  r_shift: 5
355:
- l_pos: true
  l_idx: 0
  r_pos: true
  r_idx: 0
  r_shift: 1
- l_pos: false
  l_idx: 0
  r_pos: true
  r_idx: 1
  r_shift: 2
- l_pos: true
  l_idx: 1
  r_pos: true
  r_idx: 2
  r_shift: 5
357:
- l_pos: true
  l_idx: 0
  r_pos: true
  r_idx: 0
  r_shift: 1
- l_pos: false
  l_idx: 1
  r_pos: true
  r_idx: 1
  r_shift: 4
- l_pos: false
  l_idx: 1
  r_pos: true
  r_idx: 2
  r_shift: 3
359:
- l_pos: true
  l_idx: 0
  r_pos: true
  r_idx: 0
  r_shift: 1
- l_pos: false
  l_idx: 1
  r_pos: true
  r_idx: 1
  r_shift: 4
- l_pos: false
  l_idx: 0
  r_pos: true
  r_idx: 2
  r_shift: 3
361:
- l_pos: true
  l_idx: 0
  r_pos: true
  r_idx: 0
  r_shift: 1
- l_pos: false
  l_idx: 1
  r_pos: true
  r_idx: 1
  r_shift: 4
- l_pos: true
  l_idx: 0
  r_pos: true
  r_idx: 2
  r_shift: 3
363:
- l_pos: true
  l_idx: 0
  r_pos: true
  r_idx: 0
  r_shift: 1
- l_pos: false
  l_idx: 1
  r_pos: true
  r_idx: 1
  r_shift: 4
- l_pos: true
  l_idx: 1
  r_pos: true
  r_idx: 2
  r_shift: 3
365:
- l_pos: true
  l_idx: 0
  r_pos: true
  r_idx: 0
  r_shift: 1
- l_pos: false
  l_idx: 0
  r_pos: true
  r_idx: 1
  r_shift: 3
- l_pos: false
  l_idx: 1
  r_pos: true
  r_idx: 2
  r_shift: 4
367:
- l_pos: true
  l_idx: 0
  r_pos: true
  r_idx: 0
  r_shift: 1
- l_pos: false
  l_idx: 0
  r_pos: true
  r_idx: 1
  r_shift: 3
- l_pos: false
  l_idx: 0
  r_pos: true
  r_idx: 2
  r_shift: 4
369:
- l_pos: true
  l_idx: 0
  r_pos: true
  r_idx: 0
  r_shift: 1
- l_pos: false
  l_idx: 0
  r_pos: true
  r_idx: 1
  r_shift: 3
- l_pos: true
  l_idx: 0
  r_pos: true
  r_idx: 2
  r_shift: 4
371:
- l_pos: true
  l_idx: 0
  r_pos: true
  r_idx: 0
  r_shift: 1
- l_pos: false
  l_idx: 1
  r_pos: true
  r_idx: 1
  r_shift: 5
- l_pos: false
  l_idx: 0
  r_pos: true
  r_idx: 2
  r_shift: 2
373:
- l_pos: true
  l_idx: 0
  r_pos: true
  r_idx: 0
  r_shift: 1
- l_pos: false
  l_idx: 1
  r_pos: true
  r_idx: 1
  r_shift: 5
- l_pos: true
  l_idx: 0
  r_pos: true
  r_idx: 2
  r_shift: 2
375:
- l_pos: true
  l_idx: 0
  r_pos: true
  r_idx: 0
  r_shift: 1
- l_pos: false
  l_idx: 0
  r_pos: true
  r_idx: 1
  r_shift: 4
- l_pos: false
  l_idx: 0
  r_pos: true
  r_idx: 2
  r_shift: 3
377:
- l_pos: true
  l_idx: 0
  r_pos: true
  r_idx: 0
  r_shift: 1
- l_pos: false
  l_idx: 0
  r_pos: true
  r_idx: 1
  r_shift: 4
- l_pos: true
  l_idx: 0
  r_pos: true
  r_idx: 2
  r_shift: 3
379:
- l_pos: true
  l_idx: 0
  r_pos: true
  r_idx: 0
  r_shift: 1
- l_pos: false
  l_idx: 0
  r_pos: true
  r_idx: 1
  r_shift: 5
- l_pos: false
  l_idx: 0
  r_pos: true
  r_idx: 2
  r_shift: 2
381:
- l_pos: true
  l_idx: 0
  r_pos: true
  r_idx: 0
  r_shift: 1
- l_pos: false
  l_idx: 1
  r_pos: true
  r_idx: 1
  r_shift: 7
383:
- l_pos: true
  l_idx: 0
  r_pos: true
  r_idx: 0
  r_shift: 1
- l_pos: false
  l_idx: 0
  r_pos: true
  r_idx: 1
  r_shift: 7
".
Definition text_7 : string := "385:
- l_pos: true
  l_idx: 0
  r_pos: true
  r_idx: 0
  r_shift: 1
- l_pos: true
  l_idx: 0
  r_pos: true
  r_idx: 1
  r_shift: 7
387:
- l_pos: true
  l_idx: 0
  r_pos: true
  r_idx: 0
  r_shift: 1
- l_pos: true
  l_idx: 1
  r_pos: true
  r_idx: 1
  r_shift: 7
389:
- l_pos: true
  l_idx: 0
  r_pos: true
  r_idx: 0
  r_shift: 1
- l_pos: true
  l_idx: 0
  r_pos: true
  r_idx: 1
  r_shift: 5
- l_pos: true
  l_idx: 0
  r_pos: true
  r_idx: 2
  r_shift: 2
391:
- l_pos: true
  l_idx: 0
  r_pos: true
  r_idx: 0
  r_shift: 1
- l_pos: true
  l_idx: 0
  r_pos: true
  r_idx: 1
  r_shift: 4
- l_pos: false
  l_idx: 0
  r_pos: true
  r_idx: 2
  r_shift: 3
393:
- l_pos: true
  l_idx: 0
  r_pos: true
  r_idx: 0
  r_shift: 1
- l_pos: true
  l_idx: 0
  r_pos: true
  r_idx: 1
  r_shift: 4
- l_pos: true
  l_idx: 0
  r_pos: true
  r_idx: 2
  r_shift: 3
395:
- l_pos: true
  l_idx: 0
  r_pos: true
  r_idx: 0
  r_shift: 1
- l_pos: true
  l_idx: 1
  r_pos: true
  r_idx: 1
  r_shift: 5
- l_pos: false
  l_idx: 0
  r_pos: true
  r_idx: 2
  r_shift: 2
397:
- l_pos: true
  l_idx: 0
  r_pos: true
  r_idx: 0
  r_shift: 1
- l_pos: true
  l_idx: 1
  r_pos: true
  r_idx: 1
  r_shift: 5
- l_pos: true
  l_idx: 0
  r_pos: true
  r_idx: 2
  r_shift: 2
399:
- l_pos: true
  l_idx: 0
  r_pos: true
  r_idx: 0
  r_shift: 1
- l_pos: true
  l_idx: 0
  r_pos: true
  r_idx: 1
  r_shift: 3
- l_pos: false
  l_idx: 0
  r_pos: true
  r_idx: 2
  r_shift: 4
401:
- l_pos: true
  l_idx: 0
  r_pos: true
  r_idx: 0
  r_shift: 1
- l_pos: true
  l_idx: 0
  r_pos: true
  r_idx: 1
  r_shift: 3
- l_pos: true
  l_idx: 0
  r_pos: true
  r_idx: 2
  r_shift: 4
403:
- l_pos: true
  l_idx: 0
  r_pos: true
  r_idx: 0
  r_shift: 1
- l_pos: true
  l_idx: 0
  r_pos: true
  r_idx: 1
  r_shift: 3
- l_pos: true
  l_idx: 1
  r_pos: true
  r_idx: 2
  r_shift: 4
405:
- l_pos: true
  l_idx: 0
  r_pos: true
  r_idx: 0
  r_shift: 1
- l_pos: true
  l_idx: 1
  r_pos: true
  r_idx: 1
  r_shift: 4
- l_pos: false
  l_idx: 1
  r_pos: true
  r_idx: 2
  r_shift: 3
407:
- l_pos: true
  l_idx: 0
  r_pos: true
  r_idx: 0
  r_shift: 1
- l_pos: true
  l_idx: 1
  r_pos: true
  r_idx: 1
  r_shift: 4
- l_pos: false
  l_idx: 0
  r_pos: true
  r_idx: 2
  r_shift: 3
409:
- l_pos: true
  l_idx: 0
  r_pos: true
  r_idx: 0
  r_shift: 1
- l_pos: true
  l_idx: 1
  r_pos: true
  r_idx: 1
  r_shift: 4
- l_pos: true
  l_idx: 0
  r_pos: true
  r_idx: 2
  r_shift: 3
411:
- l_pos: true
  l_idx: 0
  r_pos: true
  r_idx: 0
  r_shift: 1
- l_pos: true
  l_idx: 1
  r_pos: true
  r_idx: 1
  r_shift: 4
- l_pos: true
  l_idx: 1
  r_pos: true
  r_idx: 2
  r_shift: 3
413:
- l_pos: true
  l_idx: 0
  r_pos: true
  r_idx: 0
  r_shift: 1
- l_pos: true
  l_idx: 0
  r_pos: true
  r_idx: 1
  r_shift: 2
- l_pos: false
  l_idx: 1
  r_pos: true
  r_idx: 2
  r_shift: 5
415:
- l_pos: true
  l_idx: 0
  r_pos: true
  r_idx: 0
  r_shift: 1
- l_pos: true
  l_idx: 0
  r_pos: true
  r_idx: 1
  r_shift: 2
- l_pos: false
  l_idx: 0
  r_pos: true
  r_idx: 2
  r_shift: 5
417:
- l_pos: true
  l_idx: 0
  r_pos: true
  r_idx: 0
  r_shift: 1
- l_pos: true
  l_idx: 0
  r_pos: true
  r_idx: 1
  r_shift: 2
- l_pos: true
  l_idx: 0
  r_pos: true
  r_idx: 2
  r_shift: 5
419:
- l_pos: false
  l_idx: 0
  r_pos: true
  r_idx: 0
  r_shift: 3
- l_pos: false
  l_idx: 1
  r_pos: true
  r_idx: 1
  r_shift: 4
- l_pos: false
  l_idx: 0
  r_pos: true
  r_idx: 2
  r_shift: 2
421:
- l_pos: false
  l_idx: 0
  r_pos: true
  r_idx: 0
  r_shift: 3
- l_pos: false
  l_idx: 1
  r_pos: true
  r_idx: 1
  r_shift: 4
- l_pos: true
  l_idx: 0
  r_pos: true
  r_idx: 2
  r_shift: 2
423:
- l_pos: true
  l_idx: 0
  r_pos: true
  r_idx: 0
  r_shift: 3
- l_pos: true
  l_idx: 1
  r_pos: true
  r_idx: 1
  r_shift: 1
- l_pos: false
  l_idx: 1
  r_pos: true
  r_idx: 2
  r_shift: 4
425:
- l_pos: true
  l_idx: 0
  r_pos: true
  r_idx: 0
  r_shift: 3
- l_pos: true
  l_idx: 1
  r_pos: true
  r_idx: 0
  r_shift: 2
- l_pos: true
  l_idx: 1
  r_pos: true
  r_idx: 2
  r_shift: 5
427:
- l_pos: true
  l_idx: 0
  r_pos: true
  r_idx: 0
  r_shift: 2
- l_pos: false
  l_idx: 1
  r_pos: true
  r_idx: 0
  r_shift: 5
- l_pos: false
  l_idx: 1
  r_pos: true
  r_idx: 2
  r_shift: 4
429:
- l_pos: true
  l_idx: 0
  r_pos: true
  r_idx: 0
  r_shift: 1
- l_pos: true
  l_idx: 1
  r_pos: true
  r_idx: 1
  r_shift: 3
- l_pos: false
  l_idx: 1
  r_pos: true
  r_idx: 2
  r_shift: 4
431:
- l_pos: false
  l_idx: 0
  r_pos: true
  r_idx: 0
  r_shift: 3
- l_pos: false
  l_idx: 0
  r_pos: true
  r_idx: 1
  r_shift: 2
- l_pos: false
  l_idx: 0
  r_pos: true
  r_idx: 2
  r_shift: 4
433:
- l_pos: false
  l_idx: 0
  r_pos: true
  r_idx: 0
  r_shift: 3
- l_pos: false
  l_idx: 0
  r_pos: true
  r_idx: 1
  r_shift: 2
- l_pos: true
  l_idx: 0
  r_pos: true
  r_idx: 2
  r_shift: 4
435:
- l_pos: false
  l_idx: 0
  r_pos: true
  r_idx: 0
  r_shift: 3
- l_pos: false
  l_idx: 1
  r_pos: true
  r_idx: 1
  r_shift: 5
- l_pos: true
  l_idx: 0
  r_pos: true
  r_idx: 2
  r_shift: 1
437:
- l_pos: true
  l_idx: 0
  r_pos: true
  r_idx: 0
  r_shift: 2
- l_pos: false
  l_idx: 1
  r_pos: true
  r_idx: 0
  r_shift: 5
- l_pos: true
  l_idx: 1
  r_pos: true
  r_idx: 2
  r_shift: 4
439:
- l_pos: false
  l_idx: 0
  r_pos: true
  r_idx: 0
  r_shift: 3
- l_pos: false
  l_idx: 0
  r_pos: true
  r_idx: 1
  r_shift: 3
- l_pos: false
  l_idx: 0
  r_pos: true
  r_idx: 2
  r_shift: 3
441:
- l_pos: false
  l_idx: 0
  r_pos: true
  r_idx: 0
  r_shift: 3
- l_pos: false
  l_idx: 1
  r_pos: true
  r_idx: 1
  r_shift: 6
443:
- l_pos: false
  l_idx: 0
  r_pos: true
  r_idx: 0
  r_shift: 3
- l_pos: false
  l_idx: 0
  r_pos: true
  r_idx: 1
  r_shift: 4
- l_pos: false
  l_idx: 0
  r_pos: true
  r_idx: 2
  r_shift: 2
445:
- l_pos: false
  l_idx: 0
  r_pos: true
  r_idx: 0
  r_shift: 3
- l_pos: false
  l_idx: 0
  r_pos: true
  r_idx: 1
  r_shift: 4
- l_pos: true
  l_idx: 0
  r_pos: true
  r_idx: 2
  r_shift: 2
447:
- l_pos: false
  l_idx: 0
  r_pos: true
  r_idx: 0
  r_shift: 3
- l_pos: false
  l_idx: 0
  r_pos: true
  r_idx: 1
  r_shift: 6
".
Definition text_8 : string := "449:
- l_pos: false
  l_idx: 0
  r_pos: true
  r_idx: 0
  r_shift: 3
- l_pos: true
  l_idx: 0
  r_pos: true
  r_idx: 1
  r_shift: 6
451:
- l_pos: false
  l_idx: 0
  r_pos: true
  r_idx: 0
  r_shift: 3
- l_pos: true
  l_idx: 0
  r_pos: true
  r_idx: 1
  r_shift: 4
- l_pos: false
  l_idx: 0
  r_pos: true
  r_idx: 2
  r_shift: 2
453:
- l_pos: false
  l_idx: 0
  r_pos: true
  r_idx: 0
  r_shift: 3
- l_pos: true
  l_idx: 0
  r_pos: true
  r_idx: 1
  r_shift: 4
- l_pos: true
  l_idx: 0
  r_pos: true
  r_idx: 2
  r_shift: 2
455:
- l_pos: false
  l_idx: 0
  r_pos: true
  r_idx: 0
  r_shift: 3
- l_pos: true
  l_idx: 1
  r_pos: true
  r_idx: 1
  r_shift: 6
457:
- l_pos: false
  l_idx: 0
  r_pos: true
  r_idx: 0
  r_shift: 3
- l_pos: true
  l_idx: 0
  r_pos: true
  r_idx: 1
  r_shift: 3
- l_pos: true
  l_idx: 0
  r_pos: true
  r_idx: 2
  r_shift: 3
459:
- l_pos: false
  l_idx: 0
  r_pos: true
  r_idx: 0
  r_shift: 3
- l_pos: true
  l_idx: 0
  r_pos: true
  r_idx: 1
  r_shift: 4
- l_pos: true
  l_idx: 1
  r_pos: true
  r_idx: 2
  r_shift: 2
461:
- l_pos: false
  l_idx: 0
  r_pos: true
  r_idx: 0
  r_shift: 3
- l_pos: true
  l_idx: 1
  r_pos: true
  r_idx: 1
  r_shift: 5
- l_pos: false
  l_idx: 0
  r_pos: true
  r_idx: 2
  r_shift: 1
463:
- l_pos: false
  l_idx: 0
  r_pos: true
  r_idx: 0
  r_shift: 3
- l_pos: true
  l_idx: 0
  r_pos: true
  r_idx: 1
  r_shift: 2
- l_pos: false
  l_idx: 0
  r_pos: true
  r_idx: 2
  r_shift: 4
465:
- l_pos: false
  l_idx: 0
  r_pos: true
  r_idx: 0
  r_shift: 4
- l_pos: false
  l_idx: 1
  r_pos: true
  r_idx: 1
  r_shift: 5
467:
- l_pos: true
  l_idx: 0
  r_pos: true
  r_idx: 0
  r_shift: 1
- l_pos: false
  l_idx: 1
  r_pos: true
  r_idx: 0
  r_shift: 5
- l_pos: true
  l_idx: 1
  r_pos: true
  r_idx: 2
  r_shift: 4
469:
- l_pos: false
  l_idx: 0
  r_pos: true
  r_idx: 0
  r_shift: 3
- l_pos: true
  l_idx: 1
  r_pos: true
  r_idx: 1
  r_shift: 4
- l_pos: false
  l_idx: 1
  r_pos: true
  r_idx: 2
  r_shift: 2
471:
- l_pos: false
  l_idx: 0
  r_pos: true
  r_idx: 0
  r_shift: 4
- l_pos: false
  l_idx: 0
  r_pos: true
  r_idx: 1
  r_shift: 2
- l_pos: false
  l_idx: 0
  r_pos: true
  r_idx: 2
  r_shift: 3
473:
- l_pos: false
  l_idx: 0
  r_pos: true
  r_idx: 0
  r_shift: 4
- l_pos: false
  l_idx: 0
  r_pos: true
  r_idx: 1
  r_shift: 2
- l_pos: true
  l_idx: 0
  r_pos: true
  r_idx: 2
  r_shift: 3
475:
- l_pos: false
  l_idx: 0
  r_pos: true
  r_idx: 0
  r_shift: 4
- l_pos: false
  l_idx: 0
  r_pos: true
  r_idx: 1
  r_shift: 3
- l_pos: false
  l_idx: 0
  r_pos: true
  r_idx: 2
  r_shift: 2
477:
- l_pos: false
  l_idx: 0
  r_pos: true
  r_idx: 0
  r_shift: 4
- l_pos: false
  l_idx: 0
  r_pos: true
  r_idx: 1
  r_shift: 3
- l_pos: true
  l_idx: 0
  r_pos: true
  r_idx: 2
  r_shift: 2
479:
- l_pos: false
  l_idx: 0
  r_pos: true
  r_idx: 0
  r_shift: 4
- l_pos: false
  l_idx: 0
  r_pos: true
  r_idx: 1
  r_shift: 5
481:
- l_pos: false
  l_idx: 0
  r_pos: true
  r_idx: 0
  r_shift: 4
- l_pos: true
  l_idx: 0
  r_pos: true
  r_idx: 1
  r_shift: 5
483:
- l_pos: false
  l_idx: 0
  r_pos: true
  r_idx: 0
  r_shift: 4
- l_pos: true
  l_idx: 0
  r_pos: true
  r_idx: 1
  r_shift: 3
- l_pos: false
  l_idx: 0
  r_pos: true
  r_idx: 2
  r_shift: 2
485:
- l_pos: false
  l_idx: 0
  r_pos: true
  r_idx: 0
  r_shift: 4
- l_pos: true
  l_idx: 0
  r_pos: true
  r_idx: 1
  r_shift: 3
- l_pos: true
  l_idx: 0
  r_pos: true
  r_idx: 2
  r_shift: 2
487:
- l_pos: false
  l_idx: 0
  r_pos: true
  r_idx: 0
  r_shift: 4
- l_pos: true
  l_idx: 0
  r_pos: true
  r_idx: 1
  r_shift: 2
- l_pos: false
  l_idx: 0
  r_pos: true
  r_idx: 2
  r_shift: 3
489:
- l_pos: false
  l_idx: 0
  r_pos: true
  r_idx: 0
  r_shift: 4
- l_pos: true
  l_idx: 0
  r_pos: true
  r_idx: 1
  r_shift: 2
- l_pos: true
  l_idx: 0
  r_pos: true
  r_idx: 2
  r_shift: 3
491:
- l_pos: false
  l_idx: 0
  r_pos: true
  r_idx: 0
  r_shift: 5
- l_pos: false
  l_idx: 0
  r_pos: true
  r_idx: 1
  r_shift: 2
- l_pos: false
  l_idx: 0
  r_pos: true
  r_idx: 2
  r_shift: 2
493:
- l_pos: false
  l_idx: 0
  r_pos: true
  r_idx: 0
  r_shift: 5
- l_pos: false
  l_idx: 0
  r_pos: true
  r_idx: 1
  r_shift: 2
- l_pos: true
  l_idx: 0
  r_pos: true
  r_idx: 2
  r_shift: 2
495:
- l_pos: false
  l_idx: 0
  r_pos: true
  r_idx: 0
  r_shift: 5
- l_pos: false
  l_idx: 0
  r_pos: true
  r_idx: 1
  r_shift: 4
497:
- l_pos: false
  l_idx: 0
  r_pos: true
  r_idx: 0
  r_shift: 5
- l_pos: true
  l_idx: 0
  r_pos: true
  r_idx: 1
  r_shift: 4
499:
- l_pos: false
  l_idx: 0
  r_pos: true
  r_idx: 0
  r_shift: 5
- l_pos: true
  l_idx: 0
  r_pos: true
  r_idx: 1
  r_shift: 2
- l_pos: false
  l_idx: 0
  r_pos: true
  r_idx: 2
  r_shift: 2
501:
- l_pos: false
  l_idx: 0
  r_pos: true
  r_idx: 0
  r_shift: 5
- l_pos: true
  l_idx: 0
  r_pos: true
  r_idx: 1
  r_shift: 2
- l_pos: true
  l_idx: 0
  r_pos: true
  r_idx: 2
  r_shift: 2
503:
- l_pos: false
  l_idx: 0
  r_pos: true
  r_idx: 0
  r_shift: 6
- l_pos: false
  l_idx: 0
  r_pos: true
  r_idx: 1
  r_shift: 3
505:
- l_pos: false
  l_idx: 0
  r_pos: true
  r_idx: 0
  r_shift: 6
- l_pos: true
  l_idx: 0
  r_pos: true
  r_idx: 1
  r_shift: 3
507:
- l_pos: false
  l_idx: 0
  r_pos: true
  r_idx: 0
  r_shift: 7
- l_pos: false
  l_idx: 0
  r_pos: true
  r_idx: 1
  r_shift: 2
509:
- l_pos: false
  l_idx: 0
  r_pos: true
  r_idx: 0
  r_shift: 7
- l_pos: true
  l_idx: 0
  r_pos: true
  r_idx: 1
  r_shift: 2
511:
- l_pos: false
  l_idx: 0
  r_pos: true
  r_idx: 0
  r_shift: 9
".
Definition text_9 : string := "513:
- l_pos: true
  l_idx: 0
  r_pos: true
  r_idx: 0
  r_shift: 9
515:
- l_pos: true
  l_idx: 0
  r_pos: true
  r_idx: 0
  r_shift: 7
- l_pos: false
  l_idx: 0
  r_pos: true
  r_idx: 1
  r_shift: 2
517:
- l_pos: true
  l_idx: 0
  r_pos: true
  r_idx: 0
  r_shift: 7
- l_pos: true
  l_idx: 0
  r_pos: true
  r_idx: 1
  r_shift: 2
519:
- l_pos: true
  l_idx: 0
  r_pos: true
  r_idx: 0
  r_shift: 6
- l_pos: false
  l_idx: 0
  r_pos: true
  r_idx: 1
  r_shift: 3
521:
- l_pos: true
  l_idx: 0
  r_pos: true
  r_idx: 0
  r_shift: 6
- l_pos: true
  l_idx: 0
  r_pos: true
  r_idx: 1
  r_shift: 3
523:
- l_pos: true
  l_idx: 0
  r_pos: true
  r_idx: 0
  r_shift: 5
- l_pos: false
  l_idx: 0
  r_pos: true
  r_idx: 1
  r_shift: 2
- l_pos: false
  l_idx: 0
  r_pos: true
  r_idx: 2
  r_shift: 2
525:
- l_pos: true
  l_idx: 0
  r_pos: true
  r_idx: 0
  r_shift: 5
- l_pos: false
  l_idx: 0
  r_pos: true
  r_idx: 1
  r_shift: 2
- l_pos: true
  l_idx: 0
  r_pos: true
  r_idx: 2
  r_shift: 2
527:
- l_pos: true
  l_idx: 0
  r_pos: true
  r_idx: 0
  r_shift: 5
- l_pos: false
  l_idx: 0
  r_pos: true
  r_idx: 1
  r_shift: 4
529:
- l_pos: true
  l_idx: 0
  r_pos: true
  r_idx: 0
  r_shift: 5
- l_pos: true
  l_idx: 0
  r_pos: true
  r_idx: 1
  r_shift: 4
531:
- l_pos: true
  l_idx: 0
  r_pos: true
  r_idx: 0
  r_shift: 5
- l_pos: true
  l_idx: 0
  r_pos: true
  r_idx: 1
  r_shift: 2
- l_pos: false
  l_idx: 0
  r_pos: true
  r_idx: 2
  r_shift: 2
533:
- l_pos: true
  l_idx: 0
  r_pos: true
  r_idx: 0
  r_shift: 5
- l_pos: true
  l_idx: 0
  r_pos: true
  r_idx: 1
  r_shift: 2
- l_pos: true
  l_idx: 0
  r_pos: true
  r_idx: 2
  r_shift: 2
535:
- l_pos: true
  l_idx: 0
  r_pos: true
  r_idx: 0
  r_shift: 4
- l_pos: false
  l_idx: 0
  r_pos: true
  r_idx: 1
  r_shift: 2
- l_pos: false
  l_idx: 0
  r_pos: true
  r_idx: 2
  r_shift: 3
537:
- l_pos: true
  l_idx: 0
  r_pos: true
  r_idx: 0
  r_shift: 4
- l_pos: false
  l_idx: 0
  r_pos: true
  r_idx: 1
  r_shift: 2
- l_pos: true
  l_idx: 0
  r_pos: true
  r_idx: 2
  r_shift: 3
539:
- l_pos: true
  l_idx: 0
  r_pos: true
  r_idx: 0
  r_shift: 4
- l_pos: false
  l_idx: 0
  r_pos: true
  r_idx: 1
  r_shift: 3
- l_pos: false
  l_idx: 0
  r_pos: true
  r_idx: 2
  r_shift: 2
541:
- l_pos: true
  l_idx: 0
  r_pos: true
  r_idx: 0
  r_shift: 4
- l_pos: false
  l_idx: 0
  r_pos: true
  r_idx: 1
  r_shift: 3
- l_pos: true
  l_idx: 0
  r_pos: true
  r_idx: 2
  r_shift: 2
543:
- l_pos: true
  l_idx: 0
  r_pos: true
  r_idx: 0
  r_shift: 4
- l_pos: false
  l_idx: 0
  r_pos: true
  r_idx: 1
  r_shift: 5
545:
- l_pos: true
  l_idx: 0
  r_pos: true
  r_idx: 0
  r_shift: 4
- l_pos: true
  l_idx: 0
  r_pos: true
  r_idx: 1
  r_shift: 5
547:
- l_pos: true
  l_idx: 0
  r_pos: true
  r_idx: 0
  r_shift: 4
- l_pos: true
  l_idx: 0
  r_pos: true
  r_idx: 1
  r_shift: 3
- l_pos: false
  l_idx: 0
  r_pos: true
  r_idx: 2
  r_shift: 2
549:
- l_pos: true
  l_idx: 0
  r_pos: true
  r_idx: 0
  r_shift: 4
- l_pos: true
  l_idx: 0
  r_pos: true
  r_idx: 1
  r_shift: 3
- l_pos: true
  l_idx: 0
  r_pos: true
  r_idx: 2
  r_shift: 2
551:
- l_pos: true
  l_idx: 0
  r_pos: true
  r_idx: 0
  r_shift: 4
- l_pos: true
  l_idx: 0
  r_pos: true
  r_idx: 1
  r_shift: 2
- l_pos: false
  l_idx: 0
  r_pos: true
  r_idx: 2
  r_shift: 3
553:
- l_pos: true
  l_idx: 0
  r_pos: true
  r_idx: 0
  r_shift: 4
- l_pos: true
  l_idx: 0
  r_pos: true
  r_idx: 1
  r_shift: 2
- l_pos: true
  l_idx: 0
  r_pos: true
  r_idx: 2
  r_shift: 3
555:
- l_pos: true
  l_idx: 0
  r_pos: true
  r_idx: 0
  r_shift: 2
- l_pos: false
  l_idx: 1
  r_pos: true
  r_idx: 1
  r_shift: 3
- l_pos: false
  l_idx: 1
  r_pos: true
  r_idx: 2
  r_shift: 4
557:
- l_pos: true
  l_idx: 0
  r_pos: true
  r_idx: 0
  r_shift: 3
- l_pos: false
  l_idx: 1
  r_pos: true
  r_idx: 1
  r_shift: 5
- l_pos: false
  l_idx: 0
  r_pos: true
  r_idx: 2
  r_shift: 1
559:
- l_pos: true
  l_idx: 0
  r_pos: true
  r_idx: 0
  r_shift: 3
- l_pos: false
  l_idx: 0
  r_pos: true
  r_idx: 1
  r_shift: 2
- l_pos: false
  l_idx: 0
  r_pos: true
  r_idx: 2
  r_shift: 4
561:
- l_pos: true
  l_idx: 0
  r_pos: true
  r_idx: 0
  r_shift: 4
- l_pos: true
  l_idx: 1
  r_pos: true
  r_idx: 1
  r_shift: 5
563:
- l_pos: true
  l_idx: 0
  r_pos: true
  r_idx: 0
  r_shift: 1
- l_pos: true
  l_idx: 1
  r_pos: true
  r_idx: 0
  r_shift: 5
- l_pos: true
  l_idx: 1
  r_pos: true
  r_idx: 2
  r_shift: 4
565:
- l_pos: true
  l_idx: 0
  r_pos: true
  r_idx: 0
  r_shift: 2
- l_pos: false
  l_idx: 1
  r_pos: true
  r_idx: 1
  r_shift: 3
- l_pos: true
  l_idx: 1
  r_pos: true
  r_idx: 2
  r_shift: 4
567:
- l_pos: true
  l_idx: 0
  r_pos: true
  r_idx: 0
  r_shift: 3
- l_pos: false
  l_idx: 1
  r_pos: true
  r_idx: 1
  r_shift: 6
569:
- l_pos: true
  l_idx: 0
  r_pos: true
  r_idx: 0
  r_shift: 3
- l_pos: false
  l_idx: 0
  r_pos: true
  r_idx: 1
  r_shift: 3
- l_pos: true
  l_idx: 0
  r_pos: true
  r_idx: 2
  r_shift: 3
571:
- l_pos: true
  l_idx: 0
  r_pos: true
  r_idx: 0
  r_shift: 3
- l_pos: false
  l_idx: 0
  r_pos: true
  r_idx: 1
  r_shift: 4
- l_pos: false
  l_idx: 0
  r_pos: true
  r_idx: 2
  r_shift: 2
573:
- l_pos: true
  l_idx: 0
  r_pos: true
  r_idx: 0
  r_shift: 3
- l_pos: false
  l_idx: 0
  r_pos: true
  r_idx: 1
  r_shift: 4
- l_pos: true
  l_idx: 0
  r_pos: true
  r_idx: 2
  r_shift: 2
575:
- l_pos: true
  l_idx: 0
  r_pos: true
  r_idx: 0
  r_shift: 3
- l_pos: false
  l_idx: 0
  r_pos: true
  r_idx: 1
  r_shift: 6
".
Definition text_10 : string := "577:
- l_pos: true
  l_idx: 0
  r_pos: true
  r_idx: 0
  r_shift: 3
- l_pos: true
  l_idx: 0
  r_pos: true
  r_idx: 1
  r_shift: 6
579:
- l_pos: true
  l_idx: 0
  r_pos: true
  r_idx: 0
  r_shift: 3
- l_pos: true
  l_idx: 0
  r_pos: true
  r_idx: 1
  r_shift: 4
- l_pos: false
  l_idx: 0
  r_pos: true
  r_idx: 2
  r_shift: 2
581:
- l_pos: true
  l_idx: 0
  r_pos: true
  r_idx: 0
  r_shift: 3
- l_pos: true
  l_idx: 0
  r_pos: true
  r_idx: 1
  r_shift: 4
- l_pos: true
  l_idx: 0
  r_pos: true
  r_idx: 2
  r_shift: 2
583:
- l_pos: true
  l_idx: 0
  r_pos: true
  r_idx: 0
  r_shift: 3
- l_pos: true
  l_idx: 0
  r_pos: true
  r_idx: 1
  r_shift: 3
- l_pos: false
  l_idx: 0
  r_pos: true
  r_idx: 2
  r_shift: 3
585:
- l_pos: true
  l_idx: 0
  r_pos: true
  r_idx: 0
  r_shift: 3
- l_pos: true
  l_idx: 1
  r_pos: true
  r_idx: 1
  r_shift: 6
587:
- l_pos: true
  l_idx: 0
  r_pos: true
  r_idx: 0
  r_shift: 2
- l_pos: true
  l_idx: 1
  r_pos: true
  r_idx: 0
  r_shift: 5
- l_pos: false
  l_idx: 1
  r_pos: true
  r_idx: 2
  r_shift: 4
589:
- l_pos: true
  l_idx: 0
  r_pos: true
  r_idx: 0
  r_shift: 3
- l_pos: true
  l_idx: 0
  r_pos: true
  r_idx: 1
  r_shift: 4
- l_pos: true
  l_idx: 1
  r_pos: true
  r_idx: 2
  r_shift: 2
591:
- l_pos: true
  l_idx: 0
  r_pos: true
  r_idx: 0
  r_shift: 3
- l_pos: true
  l_idx: 0
  r_pos: true
  r_idx: 1
  r_shift: 2
- l_pos: false
  l_idx: 0
  r_pos: true
  r_idx: 2
  r_shift: 4
593:
- l_pos: true
  l_idx: 0
  r_pos: true
  r_idx: 0
  r_shift: 3
- l_pos: true
  l_idx: 0
  r_pos: true
  r_idx: 1
  r_shift: 2
- l_pos: true
  l_idx: 0
  r_pos: true
  r_idx: 2
  r_shift: 4
595:
- l_pos: true
  l_idx: 0
  r_pos: true
  r_idx: 0
  r_shift: 3
- l_pos: true
  l_idx: 1
  r_pos: true
  r_idx: 1
  r_shift: 5
- l_pos: true
  l_idx: 0
  r_pos: true
  r_idx: 2
  r_shift: 1
597:
- l_pos: true
  l_idx: 0
  r_pos: true
  r_idx: 0
  r_shift: 2
- l_pos: true
  l_idx: 1
  r_pos: true
  r_idx: 0
  r_shift: 5
- l_pos: true
  l_idx: 1
  r_pos: true
  r_idx: 2
  r_shift: 4
599:
- l_pos: true
  l_idx: 0
  r_pos: true
  r_idx: 0
  r_shift: 2
- l_pos: false
  l_idx: 1
  r_pos: true
  r_idx: 1
  r_shift: 4
- l_pos: false
  l_idx: 0
  r_pos: true
  r_idx: 2
  r_shift: 3
601:
- l_pos: true
  l_idx: 0
  r_pos: true
  r_idx: 0
  r_shift: 2
- l_pos: false
  l_idx: 1
  r_pos: true
  r_idx: 1
  r_shift: 4
- l_pos: true
  l_idx: 0
  r_pos: true
  r_idx: 2
  r_shift: 3
603:
- l_pos: true
  l_idx: 0
  r_pos: true
  r_idx: 0
  r_shift: 2
- l_pos: false
  l_idx: 0
  r_pos: true
  r_idx: 1
  r_shift: 2
- l_pos: false
  l_idx: 1
  r_pos: true
  r_idx: 2
  r_shift: 5
605:
- l_pos: true
  l_idx: 0
  r_pos: true
  r_idx: 0
  r_shift: 1
- l_pos: true
  l_idx: 1
  r_pos: true
  r_idx: 0
  r_shift: 4
- l_pos: false
  l_idx: 1
  r_pos: true
  r_idx: 2
  r_shift: 5
607:
- l_pos: true
  l_idx: 0
  r_pos: true
  r_idx: 0
  r_shift: 2
- l_pos: false
  l_idx: 0
  r_pos: true
  r_idx: 1
  r_shift: 2
- l_pos: false
  l_idx: 0
  r_pos: true
  r_idx: 2
  r_shift: 5
609:
- l_pos: true
  l_idx: 0
  r_pos: true
  r_idx: 0
  r_shift: 2
- l_pos: false
  l_idx: 0
  r_pos: true
  r_idx: 1
  r_shift: 2
- l_pos: true
  l_idx: 0
  r_pos: true
  r_idx: 2
  r_shift: 5
611:
- l_pos: true
  l_idx: 0
  r_pos: true
  r_idx: 0
  r_shift: 3
- l_pos: true
  l_idx: 1
  r_pos: true
  r_idx: 1
  r_shift: 4
- l_pos: false
  l_idx: 0
  r_pos: true
  r_idx: 2
  r_shift: 2
613:
- l_pos: true
  l_idx: 0
  r_pos: true
  r_idx: 0
  r_shift: 3
- l_pos: true
  l_idx: 1
  r_pos: true
  r_idx: 1
  r_shift: 4
- l_pos: true
  l_idx: 0
  r_pos: true
  r_idx: 2
  r_shift: 2
615:
- l_pos: true
  l_idx: 0
  r_pos: true
  r_idx: 0
  r_shift: 2
- l_pos: false
  l_idx: 1
  r_pos: true
  r_idx: 1
  r_shift: 5
- l_pos: false
  l_idx: 1
  r_pos: true
  r_idx: 2
  r_shift: 2
617:
- l_pos: true
  l_idx: 0
  r_pos: true
  r_idx: 0
  r_shift: 3
- l_pos: true
  l_idx: 0
  r_pos: true
  r_idx: 1
  r_shift: 1
- l_pos: true
  l_idx: 1
  r_pos: true
  r_idx: 2
  r_shift: 5
619:
- l_pos: true
  l_idx: 0
  r_pos: true
  r_idx: 0
  r_shift: 2
- l_pos: false
  l_idx: 1
  r_pos: true
  r_idx: 1
  r_shift: 5
- l_pos: false
  l_idx: 0
  r_pos: true
  r_idx: 2
  r_shift: 2
621:
- l_pos: true
  l_idx: 0
  r_pos: true
  r_idx: 0
  r_shift: 2
- l_pos: false
  l_idx: 1
  r_pos: true
  r_idx: 1
  r_shift: 5
- l_pos: true
  l_idx: 0
  r_pos: true
  r_idx: 2
  r_shift: 2
623:
- l_pos: true
  l_idx: 0
  r_pos: true
  r_idx: 0
  r_shift: 2
- l_pos: false
  l_idx: 0
  r_pos: true
  r_idx: 1
  r_shift: 3
- l_pos: false
  l_idx: 0
  r_pos: true
  r_idx: 2
  r_shift: 4
625:
- l_pos: true
  l_idx: 0
  r_pos: true
  r_idx: 0
  r_shift: 2
- l_pos: false
  l_idx: 0
  r_pos: true
  r_idx: 1
  r_shift: 3
- l_pos: true
  l_idx: 0
  r_pos: true
  r_idx: 2
  r_shift: 4
627:
- l_pos: true
  l_idx: 0
  r_pos: true
  r_idx: 0
  r_shift: 2
- l_pos: false
  l_idx: 0
  r_pos: true
  r_idx: 1
  r_shift: 4
- l_pos: false
  l_idx: 1
  r_pos: true
  r_idx: 2
  r_shift: 3
629:
- l_pos: true
  l_idx: 0
  r_pos: true
  r_idx: 0
  r_shift: 2
- l_pos: false
  l_idx: 1
  r_pos: true
  r_idx: 1
  r_shift: 6
- l_pos: false
  l_idx: 0
  r_pos: true
  r_idx: 2
  r_shift: 1
631:
- l_pos: true
  l_idx: 0
  r_pos: true
  r_idx: 0
  r_shift: 2
- l_pos: false
  l_idx: 0
  r_pos: true
  r_idx: 1
  r_shift: 4
- l_pos: false
  l_idx: 0
  r_pos: true
  r_idx: 2
  r_shift: 3
633:
- l_pos: true
  l_idx: 0
  r_pos: true
  r_idx: 0
  r_shift: 2
- l_pos: false
  l_idx: 0
  r_pos: true
  r_idx: 1
  r_shift: 4
- l_pos: true
  l_idx: 0
  r_pos: true
  r_idx: 2
  r_shift: 3
635:
- l_pos: true
  l_idx: 0
  r_pos: true
  r_idx: 0
  r_shift: 2
- l_pos: false
  l_idx: 1
  r_pos: true
  r_idx: 1
  r_shift: 7
637:
- l_pos: true
  l_idx: 0
  r_pos: true
  r_idx: 0
  r_shift: 2
- l_pos: false
  l_idx: 0
  r_pos: true
  r_idx: 1
  r_shift: 5
- l_pos: true
  l_idx: 0
  r_pos: true
  r_idx: 2
  r_shift: 2
639:
- l_pos: true
  l_idx: 0
  r_pos: true
  r_idx: 0
  r_shift: 2
- l_pos: false
  l_idx: 0
  r_pos: true
  r_idx: 1
  r_shift: 7
".
Definition text_11 : string := "641:
- l_pos: true
  l_idx: 0
  r_pos: true
  r_idx: 0
  r_shift: 2
- l_pos: true
  l_idx: 0
  r_pos: true
  r_idx: 1
  r_shift: 7
643:
- l_pos: true
  l_idx: 0
  r_pos: true
  r_idx: 0
  r_shift: 2
- l_pos: true
  l_idx: 0
  r_pos: true
  r_idx: 1
  r_shift: 5
- l_pos: false
  l_idx: 0
  r_pos: true
  r_idx: 2
  r_shift: 2
645:
- l_pos: true
  l_idx: 0
  r_pos: true
  r_idx: 0
  r_shift: 2
- l_pos: true
  l_idx: 1
  r_pos: true
  r_idx: 1
  r_shift: 7
647:
- l_pos: true
  l_idx: 0
  r_pos: true
  r_idx: 0
  r_shift: 2
- l_pos: true
  l_idx: 0
  r_pos: true
  r_idx: 1
  r_shift: 4
- l_pos: false
  l_idx: 0
  r_pos: true
  r_idx: 2
  r_shift: 3
649:
- l_pos: true
  l_idx: 0
  r_pos: true
  r_idx: 0
  r_shift: 2
- l_pos: true
  l_idx: 0
  r_pos: true
  r_idx: 1
  r_shift: 4
- l_pos: true
  l_idx: 0
  r_pos: true
  r_idx: 2
  r_shift: 3
651:
- l_pos: true
  l_idx: 0
  r_pos: true
  r_idx: 0
  r_shift: 2
- l_pos: true
  l_idx: 1
  r_pos: true
  r_idx: 1
  r_shift: 6
- l_pos: true
  l_idx: 0
  r_pos: true
  r_idx: 2
  r_shift: 1
653:
- l_pos: true
  l_idx: 0
  r_pos: true
  r_idx: 0
  r_shift: 2
- l_pos: true
  l_idx: 0
  r_pos: true
  r_idx: 1
  r_shift: 4
- l_pos: true
  l_idx: 1
  r_pos: true
  r_idx: 2
  r_shift: 3
655:
- l_pos: true
  l_idx: 0
  r_pos: true
  r_idx: 0
  r_shift: 2
- l_pos: true
  l_idx: 0
  r_pos: true
  r_idx: 1
  r_shift: 3
- l_pos: false
  l_idx: 0
  r_pos: true
  r_idx: 2
  r_shift: 4
657:
- l_pos: true
  l_idx: 0
  r_pos: true
  r_idx: 0
  r_shift: 2
- l_pos: true
  l_idx: 0
  r_pos: true
  r_idx: 1
  r_shift: 3
- l_pos: true
  l_idx: 0
  r_pos: true
  r_idx: 2
  r_shift: 4
659:
- l_pos: true
  l_idx: 0
  r_pos: true
  r_idx: 0
  r_shift: 2
- l_pos: true
  l_idx: 1
  r_pos: true
  r_idx: 1
  r_shift: 5
- l_pos: false
  l_idx: 0
  r_pos: true
  r_idx: 2
  r_shift: 2
661:
- l_pos: true
  l_idx: 0
  r_pos: true
  r_idx: 0
  r_shift: 2
- l_pos: true
  l_idx: 1
  r_pos: true
  r_idx: 1
  r_shift: 5
- l_pos: true
  l_idx: 0
  r_pos: true
  r_idx: 2
  r_shift: 2
663:
- l_pos: true
  l_idx: 0
  r_pos: true
  r_idx: 0
  r_shift: 4
- l_pos: true
  l_idx: 1
  r_pos: true
  r_idx: 1
  r_shift: 2
- l_pos: false
  l_idx: 1
  r_pos: true
  r_idx: 2
  r_shift: 3
665:
- l_pos: true
  l_idx: 0
  r_pos: true
  r_idx: 0
  r_shift: 2
- l_pos: true
  l_idx: 1
  r_pos: true
  r_idx: 1
  r_shift: 5
- l_pos: true
  l_idx: 1
  r_pos: true
  r_idx: 2
  r_shift: 2
667:
- l_pos: true
  l_idx: 0
  r_pos: true
  r_idx: 0
  r_shift: 2
- l_pos: true
  l_idx: 0
  r_pos: true
  r_idx: 1
  r_shift: 2
- l_pos: false
  l_idx: 1
  r_pos: true
  r_idx: 2
  r_shift: 5
669:
- l_pos: true
  l_idx: 0
  r_pos: true
  r_idx: 0
  r_shift: 1
- l_pos: false
  l_idx: 1
  r_pos: true
  r_idx: 1
  r_shift: 3
- l_pos: false
  l_idx: 1
  r_pos: true
  r_idx: 2
  r_shift: 5
671:
- l_pos: true
  l_idx: 0
  r_pos: true
  r_idx: 0
  r_shift: 2
- l_pos: true
  l_idx: 0
  r_pos: true
  r_idx: 1
  r_shift: 2
- l_pos: false
  l_idx: 0
  r_pos: true
  r_idx: 2
  r_shift: 5
673:
- l_pos: true
  l_idx: 0
  r_pos: true
  r_idx: 0
  r_shift: 2
- l_pos: true
  l_idx: 0
  r_pos: true
  r_idx: 1
  r_shift: 2
- l_pos: true
  l_idx: 0
  r_pos: true
  r_idx: 2
  r_shift: 5
675:
- l_pos: true
  l_idx: 0
  r_pos: true
  r_idx: 0
  r_shift: 1
- l_pos: false
  l_idx: 1
  r_pos: true
  r_idx: 1
  r_shift: 3
- l_pos: true
  l_idx: 1
  r_pos: true
  r_idx: 2
  r_shift: 5
677:
- l_pos: true
  l_idx: 0
  r_pos: true
  r_idx: 0
  r_shift: 2
- l_pos: true
  l_idx: 0
  r_pos: true
  r_idx: 1
  r_shift: 2
- l_pos: true
  l_idx: 1
  r_pos: true
  r_idx: 2
  r_shift: 5
679:
- l_pos: true
  l_idx: 0
  r_pos: true
  r_idx: 0
  r_shift: 2
- l_pos: true
  l_idx: 1
  r_pos: true
  r_idx: 1
  r_shift: 4
- l_pos: false
  l_idx: 0
  r_pos: true
  r_idx: 2
  r_shift: 3
681:
- l_pos: true
  l_idx: 0
  r_pos: true
  r_idx: 0
  r_shift: 2
- l_pos: true
  l_idx: 1
  r_pos: true
  r_idx: 1
  r_shift: 4
- l_pos: true
  l_idx: 0
  r_pos: true
  r_idx: 2
  r_shift: 3
683:
- l_pos: true
  l_idx: 0
  r_pos: true
  r_idx: 0
  r_shift: 2
- l_pos: true
  l_idx: 1
  r_pos: true
  r_idx: 1
  r_shift: 4
- l_pos: true
  l_idx: 0
  r_pos: true
  r_idx: 2
  r_shift: 1
- l_pos: false
  l_idx: 0
  r_pos: true
  r_idx: 3
  r_shift: 2
685:
- l_pos: true
  l_idx: 0
  r_pos: true
  r_idx: 0
  r_shift: 2
- l_pos: true
  l_idx: 1
  r_pos: true
  r_idx: 1
  r_shift: 4
- l_pos: true
  l_idx: 1
  r_pos: true
  r_idx: 2
  r_shift: 3
687:
- l_pos: true
  l_idx: 0
  r_pos: true
  r_idx: 0
  r_shift: 1
- l_pos: false
  l_idx: 0
  r_pos: true
  r_idx: 1
  r_shift: 2
- l_pos: false
  l_idx: 0
  r_pos: true
  r_idx: 2
  r_shift: 2
- l_pos: false
  l_idx: 0
  r_pos: true
  r_idx: 3
  r_shift: 4
689:
- l_pos: true
  l_idx: 0
  r_pos: true
  r_idx: 0
  r_shift: 4
- l_pos: true
  l_idx: 1
  r_pos: true
  r_idx: 0
  r_shift: 2
- l_pos: true
  l_idx: 1
  r_pos: true
  r_idx: 2
  r_shift: 5
691:
- l_pos: true
  l_idx: 0
  r_pos: true
  r_idx: 0
  r_shift: 1
- l_pos: false
  l_idx: 0
  r_pos: true
  r_idx: 1
  r_shift: 2
- l_pos: false
  l_idx: 1
  r_pos: true
  r_idx: 2
  r_shift: 4
- l_pos: false
  l_idx: 0
  r_pos: true
  r_idx: 3
  r_shift: 2
693:
- l_pos: true
  l_idx: 0
  r_pos: true
  r_idx: 0
  r_shift: 5
- l_pos: true
  l_idx: 1
  r_pos: true
  r_idx: 1
  r_shift: 2
- l_pos: true
  l_idx: 1
  r_pos: true
  r_idx: 2
  r_shift: 2
695:
- l_pos: true
  l_idx: 0
  r_pos: true
  r_idx: 0
  r_shift: 3
- l_pos: true
  l_idx: 1
  r_pos: true
  r_idx: 0
  r_shift: 1
- l_pos: false
  l_idx: 1
  r_pos: true
  r_idx: 2
  r_shift: 6
697:
- l_pos: false
  l_idx: 0
  r_pos: true
  r_idx: 0
  r_shift: 3
- l_pos: true
  l_idx: 1
  r_pos: true
  r_idx: 0
  r_shift: 2
- l_pos: false
  l_idx: 1
  r_pos: true
  r_idx: 2
  r_shift: 6
699:
- l_pos: true
  l_idx: 0
  r_pos: true
  r_idx: 0
  r_shift: 2
- l_pos: true
  l_idx: 0
  r_pos: true
  r_idx: 1
  r_shift: 1
- l_pos: false
  l_idx: 1
  r_pos: true
  r_idx: 2
  r_shift: 6
701:
- l_pos: true
  l_idx: 0
  r_pos: true
  r_idx: 0
  r_shift: 1
- l_pos: false
  l_idx: 0
  r_pos: true
  r_idx: 1
  r_shift: 2
- l_pos: false
  l_idx: 1
  r_pos: true
  r_idx: 2
  r_shift: 6
703:
- l_pos: true
  l_idx: 0
  r_pos: true
  r_idx: 0
  r_shift: 1
- l_pos: false
  l_idx: 0
  r_pos: true
  r_idx: 1
  r_shift: 2
- l_pos: false
  l_idx: 0
  r_pos: true
  r_idx: 2
  r_shift: 6
".
Definition text_12 : string := "705:
- l_pos: true
  l_idx: 0
  r_pos: true
  r_idx: 0
  r_shift: 1
- l_pos: false
  l_idx: 0
  r_pos: true
  r_idx: 1
  r_shift: 2
- l_pos: true
  l_idx: 0
  r_pos: true
  r_idx: 2
  r_shift: 6
707:
- l_pos: true
  l_idx: 0
  r_pos: true
  r_idx: 0
  r_shift: 1
- l_pos: false
  l_idx: 0
  r_pos: true
  r_idx: 1
  r_shift: 2
- l_pos: true
  l_idx: 1
  r_pos: true
  r_idx: 2
  r_shift: 6
709:
- l_pos: true
  l_idx: 0
  r_pos: true
  r_idx: 0
  r_shift: 2
- l_pos: true
  l_idx: 0
  r_pos: true
  r_idx: 1
  r_shift: 1
- l_pos: true
  l_idx: 1
  r_pos: true
  r_idx: 2
  r_shift: 6
711:
- l_pos: true
  l_idx: 0
  r_pos: true
  r_idx: 0
  r_shift: 3
- l_pos: true
  l_idx: 1
  r_pos: true
  r_idx: 1
  r_shift: 2
- l_pos: false
  l_idx: 1
  r_pos: true
  r_idx: 2
  r_shift: 4
713:
- l_pos: true
  l_idx: 0
  r_pos: true
  r_idx: 0
  r_shift: 3
- l_pos: true
  l_idx: 1
  r_pos: true
  r_idx: 0
  r_shift: 1
- l_pos: true
  l_idx: 1
  r_pos: true
  r_idx: 2
  r_shift: 6
715:
- l_pos: true
  l_idx: 0
  r_pos: true
  r_idx: 0
  r_shift: 2
- l_pos: true
  l_idx: 1
  r_pos: true
  r_idx: 1
  r_shift: 3
- l_pos: false
  l_idx: 1
  r_pos: true
  r_idx: 2
  r_shift: 4
717:
- l_pos: true
  l_idx: 0
  r_pos: true
  r_idx: 0
  r_shift: 1
- l_pos: false
  l_idx: 1
  r_pos: true
  r_idx: 1
  r_shift: 4
- l_pos: false
  l_idx: 1
  r_pos: true
  r_idx: 2
  r_shift: 4
719:
- l_pos: true
  l_idx: 0
  r_pos: true
  r_idx: 0
  r_shift: 1
- l_pos: false
  l_idx: 1
  r_pos: true
  r_idx: 1
  r_shift: 4
- l_pos: false
  l_idx: 0
  r_pos: true
  r_idx: 2
  r_shift: 4
721:
- l_pos: true
  l_idx: 0
  r_pos: true
  r_idx: 0
  r_shift: 1
- l_pos: false
  l_idx: 1
  r_pos: true
  r_idx: 1
  r_shift: 4
- l_pos: true
  l_idx: 0
  r_pos: true
  r_idx: 2
  r_shift: 4
723:
- l_pos: true
  l_idx: 0
  r_pos: true
  r_idx: 0
  r_shift: 1
- l_pos: false
  l_idx: 1
  r_pos: true
  r_idx: 1
  r_shift: 4
- l_pos: true
  l_idx: 1
  r_pos: true
  r_idx: 2
  r_shift: 4
725:
- l_pos: true
  l_idx: 0
  r_pos: true
  r_idx: 0
  r_shift: 2
- l_pos: true
  l_idx: 1
  r_pos: true
  r_idx: 1
  r_shift: 3
- l_pos: true
  l_idx: 1
  r_pos: true
  r_idx: 2
  r_shift: 4
727:
- l_pos: true
  l_idx: 0
  r_pos: true
  r_idx: 0
  r_shift: 3
- l_pos: false
  l_idx: 1
  r_pos: true
  r_idx: 0
  r_shift: 5
- l_pos: false
  l_idx: 1
  r_pos: true
  r_idx: 2
  r_shift: 5
729:
- l_pos: true
  l_idx: 0
  r_pos: true
  r_idx: 0
  r_shift: 3
- l_pos: true
  l_idx: 1
  r_pos: true
  r_idx: 1
  r_shift: 2
- l_pos: true
  l_idx: 1
  r_pos: true
  r_idx: 2
  r_shift: 4
731:
- l_pos: true
  l_idx: 0
  r_pos: true
  r_idx: 0
  r_shift: 1
- l_pos: false
  l_idx: 0
  r_pos: true
  r_idx: 1
  r_shift: 3
- l_pos: false
  l_idx: 0
  r_pos: true
  r_idx: 2
  r_shift: 3
- l_pos: false
  l_idx: 0
  r_pos: true
  r_idx: 3
  r_shift: 2
733:
- l_pos: true
  l_idx: 0
  r_pos: true
  r_idx: 0
  r_shift: 1
- l_pos: false
  l_idx: 0
  r_pos: true
  r_idx: 1
  r_shift: 3
- l_pos: false
  l_idx: 1
  r_pos: true
  r_idx: 2
  r_shift: 5
735:
- l_pos: true
  l_idx: 0
  r_pos: true
  r_idx: 0
  r_shift: 1
- l_pos: false
  l_idx: 0
  r_pos: true
  r_idx: 1
  r_shift: 3
- l_pos: false
  l_idx: 0
  r_pos: true
  r_idx: 2
  r_shift: 5
737:
- l_pos: true
  l_idx: 0
  r_pos: true
  r_idx: 0
  r_shift: 1
- l_pos: false
  l_idx: 0
  r_pos: true
  r_idx: 1
  r_shift: 3
- l_pos: true
  l_idx: 0
  r_pos: true
  r_idx: 2
  r_shift: 5
739:
- l_pos: true
  l_idx: 0
  r_pos: true
  r_idx: 0
  r_shift: 1
- l_pos: false
  l_idx: 0
  r_pos: true
  r_idx: 1
  r_shift: 3
- l_pos: true
  l_idx: 1
  r_pos: true
  r_idx: 2
  r_shift: 5
741:
- l_pos: true
  l_idx: 0
  r_pos: true
  r_idx: 0
  r_shift: 1
- l_pos: false
  l_idx: 1
  r_pos: true
  r_idx: 1
  r_shift: 5
- l_pos: false
  l_idx: 1
  r_pos: true
  r_idx: 2
  r_shift: 3
743:
- l_pos: true
  l_idx: 0
  r_pos: true
  r_idx: 0
  r_shift: 1
- l_pos: false
  l_idx: 1
  r_pos: true
  r_idx: 1
  r_shift: 5
- l_pos: false
  l_idx: 0
  r_pos: true
  r_idx: 2
  r_shift: 3
745:
- l_pos: true
  l_idx: 0
  r_pos: true
  r_idx: 0
  r_shift: 1
- l_pos: false
  l_idx: 1
  r_pos: true
  r_idx: 1
  r_shift: 5
- l_pos: true
  l_idx: 0
  r_pos: true
  r_idx: 2
  r_shift: 3
747:
- l_pos: true
  l_idx: 0
  r_pos: true
  r_idx: 0
  r_shift: 1
- l_pos: false
  l_idx: 1
  r_pos: true
  r_idx: 1
  r_shift: 5
- l_pos: true
  l_idx: 1
  r_pos: true
  r_idx: 2
  r_shift: 3
749:
- l_pos: true
  l_idx: 0
  r_pos: true
  r_idx: 0
  r_shift: 1
- l_pos: false
  l_idx: 0
  r_pos: true
  r_idx: 1
  r_shift: 4
- l_pos: false
  l_idx: 1
  r_pos: true
  r_idx: 2
  r_shift: 4
751:
- l_pos: true
  l_idx: 0
  r_pos: true
  r_idx: 0
  r_shift: 1
- l_pos: false
  l_idx: 0
  r_pos: true
  r_idx: 1
  r_shift: 4
- l_pos: false
  l_idx: 0
  r_pos: true
  r_idx: 2
  r_shift: 4
753:
- l_pos: true
  l_idx: 0
  r_pos: true
  r_idx: 0
  r_shift: 1
- l_pos: false
  l_idx: 0
  r_pos: true
  r_idx: 1
  r_shift: 4
- l_pos: true
  l_idx: 0
  r_pos: true
  r_idx: 2
  r_shift: 4
755:
- l_pos: true
  l_idx: 0
  r_pos: true
  r_idx: 0
  r_shift: 1
- l_pos: false
  l_idx: 1
  r_pos: true
  r_idx: 1
  r_shift: 6
- l_pos: false
  l_idx: 0
  r_pos: true
  r_idx: 2
  r_shift: 2
757:
- l_pos: true
  l_idx: 0
  r_pos: true
  r_idx: 0
  r_shift: 1
- l_pos: false
  l_idx: 1
  r_pos: true
  r_idx: 1
  r_shift: 6
- l_pos: true
  l_idx: 0
  r_pos: true
  r_idx: 2
  r_shift: 2
759:
- l_pos: true
  l_idx: 0
  r_pos: true
  r_idx: 0
  r_shift: 1
- l_pos: false
  l_idx: 0
  r_pos: true
  r_idx: 1
  r_shift: 5
- l_pos: false
  l_idx: 0
  r_pos: true
  r_idx: 2
  r_shift: 3
761:
- l_pos: true
  l_idx: 0
  r_pos: true
  r_idx: 0
  r_shift: 1
- l_pos: false
  l_idx: 0
  r_pos: true
  r_idx: 1
  r_shift: 5
- l_pos: true
  l_idx: 0
  r_pos: true
  r_idx: 2
  r_shift: 3
763:
- l_pos: true
  l_idx: 0
  r_pos: true
  r_idx: 0
  r_shift: 1
- l_pos: false
  l_idx: 0
  r_pos: true
  r_idx: 1
  r_shift: 6
- l_pos: false
  l_idx: 0
  r_pos: true
  r_idx: 2
  r_shift: 2
765:
- l_pos: true
  l_idx: 0
  r_pos: true
  r_idx: 0
  r_shift: 1
- l_pos: false
  l_idx: 1
  r_pos: true
  r_idx: 1
  r_shift: 8
767:
- l_pos: true
  l_idx: 0
  r_pos: true
  r_idx: 0
  r_shift: 1
- l_pos: false
  l_idx: 0
  r_pos: true
  r_idx: 1
  r_shift: 8
".
Definition text_13 : string := "769:
- l_pos: true
  l_idx: 0
  r_pos: true
  r_idx: 0
  r_shift: 1
- l_pos: true
  l_idx: 0
  r_pos: true
  r_idx: 1
  r_shift: 8
771:
- l_pos: true
  l_idx: 0
  r_pos: true
  r_idx: 0
  r_shift: 1
- l_pos: true
  l_idx: 1
  r_pos: true
  r_idx: 1
  r_shift: 8
773:
- l_pos: true
  l_idx: 0
  r_pos: true
  r_idx: 0
  r_shift: 1
- l_pos: true
  l_idx: 0
  r_pos: true
  r_idx: 1
  r_shift: 6
- l_pos: true
  l_idx: 0
  r_pos: true
  r_idx: 2
  r_shift: 2
775:
- l_pos: true
  l_idx: 0
  r_pos: true
  r_idx: 0
  r_shift: 1
- l_pos: true
  l_idx: 0
  r_pos: true
  r_idx: 1
  r_shift: 5
- l_pos: false
  l_idx: 0
  r_pos: true
  r_idx: 2
  r_shift: 3
777:
- l_pos: true
  l_idx: 0
  r_pos: true
  r_idx: 0
  r_shift: 1
- l_pos: true
  l_idx: 0
  r_pos: true
  r_idx: 1
  r_shift: 5
- l_pos: true
  l_idx: 0
  r_pos: true
  r_idx: 2
  r_shift: 3
779:
- l_pos: true
  l_idx: 0
  r_pos: true
  r_idx: 0
  r_shift: 1
- l_pos: true
  l_idx: 1
  r_pos: true
  r_idx: 1
  r_shift: 6
- l_pos: false
  l_idx: 0
  r_pos: true
  r_idx: 2
  r_shift: 2
781:
- l_pos: true
  l_idx: 0
  r_pos: true
  r_idx: 0
  r_shift: 1
- l_pos: true
  l_idx: 1
  r_pos: true
  r_idx: 1
  r_shift: 6
- l_pos: true
  l_idx: 0
  r_pos: true
  r_idx: 2
  r_shift: 2
783:
- l_pos: true
  l_idx: 0
  r_pos: true
  r_idx: 0
  r_shift: 1
- l_pos: true
  l_idx: 0
  r_pos: true
  r_idx: 1
  r_shift: 4
- l_pos: false
  l_idx: 0
  r_pos: true
  r_idx: 2
  r_shift: 4
785:
- l_pos: true
  l_idx: 0
  r_pos: true
  r_idx: 0
  r_shift: 1
- l_pos: true
  l_idx: 0
  r_pos: true
  r_idx: 1
  r_shift: 4
- l_pos: true
  l_idx: 0
  r_pos: true
  r_idx: 2
  r_shift: 4
787:
- l_pos: true
  l_idx: 0
  r_pos: true
  r_idx: 0
  r_shift: 1
- l_pos: true
  l_idx: 0
  r_pos: true
  r_idx: 1
  r_shift: 4
- l_pos: true
  l_idx: 1
  r_pos: true
  r_idx: 2
  r_shift: 4
789:
- l_pos: true
  l_idx: 0
  r_pos: true
  r_idx: 0
  r_shift: 1
- l_pos: true
  l_idx: 1
  r_pos: true
  r_idx: 1
  r_shift: 5
- l_pos: false
  l_idx: 1
  r_pos: true
  r_idx: 2
  r_shift: 3
791:
- l_pos: true
  l_idx: 0
  r_pos: true
  r_idx: 0
  r_shift: 1
- l_pos: true
  l_idx: 1
  r_pos: true
  r_idx: 1
  r_shift: 5
- l_pos: false
  l_idx: 0
  r_pos: true
  r_idx: 2
  r_shift: 3
793:
- l_pos: true
  l_idx: 0
  r_pos: true
  r_idx: 0
  r_shift: 1
- l_pos: true
  l_idx: 1
  r_pos: true
  r_idx: 1
  r_shift: 5
- l_pos: true
  l_idx: 0
  r_pos: true
  r_idx: 2
  r_shift: 3
795:
- l_pos: true
  l_idx: 0
  r_pos: true
  r_idx: 0
  r_shift: 1
- l_pos: true
  l_idx: 1
  r_pos: true
  r_idx: 1
  r_shift: 5
- l_pos: true
  l_idx: 1
  r_pos: true
  r_idx: 2
  r_shift: 3
797:
- l_pos: true
  l_idx: 0
  r_pos: true
  r_idx: 0
  r_shift: 1
- l_pos: true
  l_idx: 0
  r_pos: true
  r_idx: 1
  r_shift: 3
- l_pos: false
  l_idx: 1
  r_pos: true
  r_idx: 2
  r_shift: 5
799:
- l_pos: true
  l_idx: 0
  r_pos: true
  r_idx: 0
  r_shift: 1
- l_pos: true
  l_idx: 0
  r_pos: true
  r_idx: 1
  r_shift: 3
- l_pos: false
  l_idx: 0
  r_pos: true
  r_idx: 2
  r_shift: 5
801:
- l_pos: true
  l_idx: 0
  r_pos: true
  r_idx: 0
  r_shift: 1
- l_pos: true
  l_idx: 0
  r_pos: true
  r_idx: 1
  r_shift: 3
- l_pos: true
  l_idx: 0
  r_pos: true
  r_idx: 2
  r_shift: 5
803:
- l_pos: true
  l_idx: 0
  r_pos: true
  r_idx: 0
  r_shift: 1
- l_pos: true
  l_idx: 0
  r_pos: true
  r_idx: 1
  r_shift: 3
- l_pos: true
  l_idx: 1
  r_pos: true
  r_idx: 2
  r_shift: 5
805:
- l_pos: true
  l_idx: 0
  r_pos: true
  r_idx: 0
  r_shift: 2
- l_pos: true
  l_idx: 1
  r_pos: true
  r_idx: 1
  r_shift: 2
- l_pos: true
  l_idx: 1
  r_pos: true
  r_idx: 2
  r_shift: 5
807:
- l_pos: false
  l_idx: 0
  r_pos: true
  r_idx: 0
  r_shift: 3
- l_pos: false
  l_idx: 1
  r_pos: true
  r_idx: 0
  r_shift: 5
- l_pos: true
  l_idx: 1
  r_pos: true
  r_idx: 2
  r_shift: 5
809:
- l_pos: true
  l_idx: 0
  r_pos: true
  r_idx: 0
  r_shift: 3
- l_pos: true
  l_idx: 1
  r_pos: true
  r_idx: 0
  r_shift: 4
- l_pos: true
  l_idx: 1
  r_pos: true
  r_idx: 2
  r_shift: 5
811:
- l_pos: true
  l_idx: 0
  r_pos: true
  r_idx: 0
  r_shift: 1
- l_pos: true
  l_idx: 1
  r_pos: true
  r_idx: 1
  r_shift: 4
- l_pos: false
  l_idx: 0
  r_pos: true
  r_idx: 2
  r_shift: 2
- l_pos: false
  l_idx: 0
  r_pos: true
  r_idx: 3
  r_shift: 2
813:
- l_pos: true
  l_idx: 0
  r_pos: true
  r_idx: 0
  r_shift: 1
- l_pos: true
  l_idx: 1
  r_pos: true
  r_idx: 1
  r_shift: 4
- l_pos: false
  l_idx: 1
  r_pos: true
  r_idx: 2
  r_shift: 4
815:
- l_pos: true
  l_idx: 0
  r_pos: true
  r_idx: 0
  r_shift: 1
- l_pos: true
  l_idx: 1
  r_pos: true
  r_idx: 1
  r_shift: 4
- l_pos: false
  l_idx: 0
  r_pos: true
  r_idx: 2
  r_shift: 4
817:
- l_pos: true
  l_idx: 0
  r_pos: true
  r_idx: 0
  r_shift: 1
- l_pos: true
  l_idx: 1
  r_pos: true
  r_idx: 1
  r_shift: 4
- l_pos: true
  l_idx: 0
  r_pos: true
  r_idx: 2
  r_shift: 4
819:
- l_pos: true
  l_idx: 0
  r_pos: true
  r_idx: 0
  r_shift: 1
- l_pos: true
  l_idx: 1
  r_pos: true
  r_idx: 1
  r_shift: 4
- l_pos: true
  l_idx: 1
  r_pos: true
  r_idx: 2
  r_shift: 4
821:
- l_pos: true
  l_idx: 0
  r_pos: true
  r_idx: 0
  r_shift: 1
- l_pos: true
  l_idx: 1
  r_pos: true
  r_idx: 1
  r_shift: 4
- l_pos: true
  l_idx: 0
  r_pos: true
  r_idx: 2
  r_shift: 2
- l_pos: true
  l_idx: 0
  r_pos: true
  r_idx: 3
  r_shift: 2
823:
- l_pos: true
  l_idx: 0
  r_pos: true
  r_idx: 0
  r_shift: 3
- l_pos: true
  l_idx: 1
  r_pos: true
  r_idx: 0
  r_shift: 2
- l_pos: false
  l_idx: 1
  r_pos: true
  r_idx: 2
  r_shift: 6
825:
- l_pos: false
  l_idx: 0
  r_pos: true
  r_idx: 0
  r_shift: 3
- l_pos: false
  l_idx: 0
  r_pos: true
  r_idx: 1
  r_shift: 1
- l_pos: false
  l_idx: 1
  r_pos: true
  r_idx: 2
  r_shift: 6
827:
- l_pos: true
  l_idx: 0
  r_pos: true
  r_idx: 0
  r_shift: 2
- l_pos: true
  l_idx: 1
  r_pos: true
  r_idx: 0
  r_shift: 3
- l_pos: false
  l_idx: 1
  r_pos: true
  r_idx: 2
  r_shift: 6
829:
- l_pos: true
  l_idx: 0
  r_pos: true
  r_idx: 0
  r_shift: 1
- l_pos: true
  l_idx: 0
  r_pos: true
  r_idx: 1
  r_shift: 2
- l_pos: false
  l_idx: 1
  r_pos: true
  r_idx: 2
  r_shift: 6
831:
- l_pos: true
  l_idx: 0
  r_pos: true
  r_idx: 0
  r_shift: 1
- l_pos: true
  l_idx: 0
  r_pos: true
  r_idx: 1
  r_shift: 2
- l_pos: false
  l_idx: 0
  r_pos: true
  r_idx: 2
  r_shift: 6
".
Definition text_14 : string := "833:
- l_pos: true
  l_idx: 0
  r_pos: true
  r_idx: 0
  r_shift: 1
- l_pos: true
  l_idx: 0
  r_pos: true
  r_idx: 1
  r_shift: 2
- l_pos: true
  l_idx: 0
  r_pos: true
  r_idx: 2
  r_shift: 6
835:
- l_pos: true
  l_idx: 0
  r_pos: true
  r_idx: 0
  r_shift: 1
- l_pos: true
  l_idx: 0
  r_pos: true
  r_idx: 1
  r_shift: 2
- l_pos: true
  l_idx: 1
  r_pos: true
  r_idx: 2
  r_shift: 6
837:
- l_pos: true
  l_idx: 0
  r_pos: true
  r_idx: 0
  r_shift: 2
- l_pos: true
  l_idx: 1
  r_pos: true
  r_idx: 0
  r_shift: 3
- l_pos: true
  l_idx: 1
  r_pos: true
  r_idx: 2
  r_shift: 6
839:
- l_pos: false
  l_idx: 0
  r_pos: true
  r_idx: 0
  r_shift: 3
- l_pos: false
  l_idx: 1
  r_pos: true
  r_idx: 1
  r_shift: 4
- l_pos: false
  l_idx: 0
  r_pos: true
  r_idx: 2
  r_shift: 3
841:
- l_pos: false
  l_idx: 0
  r_pos: true
  r_idx: 0
  r_shift: 3
- l_pos: false
  l_idx: 1
  r_pos: true
  r_idx: 1
  r_shift: 4
- l_pos: true
  l_idx: 0
  r_pos: true
  r_idx: 2
  r_shift: 3
843:
- l_pos: false
  l_idx: 0
  r_pos: true
  r_idx: 0
  r_shift: 3
- l_pos: false
  l_idx: 1
  r_pos: true
  r_idx: 1
  r_shift: 4
- l_pos: true
  l_idx: 0
  r_pos: true
  r_idx: 2
  r_shift: 1
- l_pos: false
  l_idx: 0
  r_pos: true
  r_idx: 3
  r_shift: 2
845:
- l_pos: true
  l_idx: 0
  r_pos: true
  r_idx: 0
  r_shift: 6
- l_pos: true
  l_idx: 1
  r_pos: true
  r_idx: 1
  r_shift: 1
- l_pos: true
  l_idx: 1
  r_pos: true
  r_idx: 2
  r_shift: 2
847:
- l_pos: false
  l_idx: 0
  r_pos: true
  r_idx: 0
  r_shift: 3
- l_pos: false
  l_idx: 1
  r_pos: true
  r_idx: 1
  r_shift: 4
- l_pos: true
  l_idx: 1
  r_pos: true
  r_idx: 2
  r_shift: 3
849:
- l_pos: true
  l_idx: 0
  r_pos: true
  r_idx: 0
  r_shift: 4
- l_pos: true
  l_idx: 1
  r_pos: false
  r_idx: 0
  r_shift: 2
- l_pos: true
  l_idx: 1
  r_pos: true
  r_idx: 2
  r_shift: 6
851:
- l_pos: true
  l_idx: 0
  r_pos: true
  r_idx: 0
  r_shift: 1
- l_pos: true
  l_idx: 1
  r_pos: true
  r_idx: 1
  r_shift: 3
- l_pos: false
  l_idx: 1
  r_pos: true
  r_idx: 2
  r_shift: 3
- l_pos: false
  l_idx: 0
  r_pos: true
  r_idx: 3
  r_shift: 2
853:
- l_pos: true
  l_idx: 0
  r_pos: true
  r_idx: 0
  r_shift: 1
- l_pos: true
  l_idx: 1
  r_pos: true
  r_idx: 1
  r_shift: 3
- l_pos: false
  l_idx: 1
  r_pos: true
  r_idx: 2
  r_shift: 3
- l_pos: true
  l_idx: 0
  r_pos: true
  r_idx: 3
  r_shift: 2
855:
- l_pos: true
  l_idx: 0
  r_pos: true
  r_idx: 0
  r_shift: 3
- l_pos: true
  l_idx: 1
  r_pos: true
  r_idx: 1
  r_shift: 1
- l_pos: false
  l_idx: 1
  r_pos: true
  r_idx: 2
  r_shift: 5
857:
- l_pos: false
  l_idx: 0
  r_pos: true
  r_idx: 0
  r_shift: 3
- l_pos: false
  l_idx: 0
  r_pos: true
  r_idx: 1
  r_shift: 2
- l_pos: false
  l_idx: 1
  r_pos: true
  r_idx: 2
  r_shift: 5
859:
- l_pos: true
  l_idx: 0
  r_pos: true
  r_idx: 0
  r_shift: 2
- l_pos: false
  l_idx: 1
  r_pos: true
  r_idx: 0
  r_shift: 5
- l_pos: false
  l_idx: 1
  r_pos: true
  r_idx: 2
  r_shift: 5
861:
- l_pos: true
  l_idx: 0
  r_pos: true
  r_idx: 0
  r_shift: 1
- l_pos: true
  l_idx: 1
  r_pos: true
  r_idx: 1
  r_shift: 3
- l_pos: false
  l_idx: 1
  r_pos: true
  r_idx: 2
  r_shift: 5
863:
- l_pos: false
  l_idx: 0
  r_pos: true
  r_idx: 0
  r_shift: 3
- l_pos: false
  l_idx: 0
  r_pos: true
  r_idx: 1
  r_shift: 2
- l_pos: false
  l_idx: 0
  r_pos: true
  r_idx: 2
  r_shift: 5
865:
- l_pos: false
  l_idx: 0
  r_pos: true
  r_idx: 0
  r_shift: 3
- l_pos: false
  l_idx: 0
  r_pos: true
  r_idx: 1
  r_shift: 2
- l_pos: true
  l_idx: 0
  r_pos: true
  r_idx: 2
  r_shift: 5
867:
- l_pos: false
  l_idx: 0
  r_pos: true
  r_idx: 0
  r_shift: 3
- l_pos: false
  l_idx: 1
  r_pos: true
  r_idx: 1
  r_shift: 5
- l_pos: false
  l_idx: 0
  r_pos: true
  r_idx: 2
  r_shift: 2
869:
- l_pos: false
  l_idx: 0
  r_pos: true
  r_idx: 0
  r_shift: 3
- l_pos: false
  l_idx: 1
  r_pos: true
  r_idx: 1
  r_shift: 5
- l_pos: true
  l_idx: 0
  r_pos: true
  r_idx: 2
  r_shift: 2
871:
- l_pos: true
  l_idx: 0
  r_pos: true
  r_idx: 0
  r_shift: 3
- l_pos: false
  l_idx: 1
  r_pos: true
  r_idx: 0
  r_shift: 6
- l_pos: false
  l_idx: 1
  r_pos: true
  r_idx: 2
  r_shift: 4
873:
- l_pos: true
  l_idx: 0
  r_pos: true
  r_idx: 0
  r_shift: 3
- l_pos: true
  l_idx: 1
  r_pos: true
  r_idx: 1
  r_shift: 1
- l_pos: true
  l_idx: 1
  r_pos: true
  r_idx: 2
  r_shift: 5
875:
- l_pos: false
  l_idx: 0
  r_pos: true
  r_idx: 0
  r_shift: 3
- l_pos: false
  l_idx: 1
  r_pos: true
  r_idx: 1
  r_shift: 5
- l_pos: true
  l_idx: 1
  r_pos: true
  r_idx: 2
  r_shift: 2
877:
- l_pos: false
  l_idx: 0
  r_pos: true
  r_idx: 0
  r_shift: 3
- l_pos: false
  l_idx: 0
  r_pos: true
  r_idx: 1
  r_shift: 3
- l_pos: false
  l_idx: 0
  r_pos: true
  r_idx: 2
  r_shift: 2
- l_pos: true
  l_idx: 0
  r_pos: true
  r_idx: 3
  r_shift: 2
879:
- l_pos: false
  l_idx: 0
  r_pos: true
  r_idx: 0
  r_shift: 3
- l_pos: false
  l_idx: 0
  r_pos: true
  r_idx: 1
  r_shift: 3
- l_pos: false
  l_idx: 0
  r_pos: true
  r_idx: 2
  r_shift: 4
881:
- l_pos: false
  l_idx: 0
  r_pos: true
  r_idx: 0
  r_shift: 3
- l_pos: false
  l_idx: 0
  r_pos: true
  r_idx: 1
  r_shift: 3
- l_pos: true
  l_idx: 0
  r_pos: true
  r_idx: 2
  r_shift: 4
883:
- l_pos: false
  l_idx: 0
  r_pos: true
  r_idx: 0
  r_shift: 3
- l_pos: false
  l_idx: 1
  r_pos: true
  r_idx: 1
  r_shift: 6
- l_pos: true
  l_idx: 0
  r_pos: true
  r_idx: 2
  r_shift: 1
885:
- l_pos: false
  l_idx: 0
  r_pos: true
  r_idx: 0
  r_shift: 3
- l_pos: false
  l_idx: 0
  r_pos: true
  r_idx: 1
  r_shift: 5
- l_pos: false
  l_idx: 1
  r_pos: true
  r_idx: 2
  r_shift: 2
887:
- l_pos: false
  l_idx: 0
  r_pos: true
  r_idx: 0
  r_shift: 3
- l_pos: false
  l_idx: 0
  r_pos: true
  r_idx: 1
  r_shift: 4
- l_pos: false
  l_idx: 0
  r_pos: true
  r_idx: 2
  r_shift: 3
889:
- l_pos: false
  l_idx: 0
  r_pos: true
  r_idx: 0
  r_shift: 3
- l_pos: false
  l_idx: 1
  r_pos: true
  r_idx: 1
  r_shift: 7
891:
- l_pos: false
  l_idx: 0
  r_pos: true
  r_idx: 0
  r_shift: 3
- l_pos: false
  l_idx: 0
  r_pos: true
  r_idx: 1
  r_shift: 5
- l_pos: false
  l_idx: 0
  r_pos: true
  r_idx: 2
  r_shift: 2
893:
- l_pos: false
  l_idx: 0
  r_pos: true
  r_idx: 0
  r_shift: 3
- l_pos: false
  l_idx: 0
  r_pos: true
  r_idx: 1
  r_shift: 5
- l_pos: true
  l_idx: 0
  r_pos: true
  r_idx: 2
  r_shift: 2
895:
- l_pos: false
  l_idx: 0
  r_pos: true
  r_idx: 0
  r_shift: 3
- l_pos: false
  l_idx: 0
  r_pos: true
  r_idx: 1
  r_shift: 7
".
Definition text_15 : string := "897:
- l_pos: false
  l_idx: 0
  r_pos: true
  r_idx: 0
  r_shift: 3
- l_pos: true
  l_idx: 0
  r_pos: true
  r_idx: 1
  r_shift: 7
899:
- l_pos: false
  l_idx: 0
  r_pos: true
  r_idx: 0
  r_shift: 3
- l_pos: true
  l_idx: 0
  r_pos: true
  r_idx: 1
  r_shift: 5
- l_pos: false
  l_idx: 0
  r_pos: true
  r_idx: 2
  r_shift: 2
901:
- l_pos: false
  l_idx: 0
  r_pos: true
  r_idx: 0
  r_shift: 3
- l_pos: true
  l_idx: 0
  r_pos: true
  r_idx: 1
  r_shift: 5
- l_pos: true
  l_idx: 0
  r_pos: true
  r_idx: 2
  r_shift: 2
903:
- l_pos: false
  l_idx: 0
  r_pos: true
  r_idx: 0
  r_shift: 3
- l_pos: true
  l_idx: 1
  r_pos: true
  r_idx: 1
  r_shift: 7
905:
- l_pos: false
  l_idx: 0
  r_pos: true
  r_idx: 0
  r_shift: 3
- l_pos: true
  l_idx: 0
  r_pos: true
  r_idx: 1
  r_shift: 4
- l_pos: true
  l_idx: 0
  r_pos: true
  r_idx: 2
  r_shift: 3
907:
- l_pos: false
  l_idx: 0
  r_pos: true
  r_idx: 0
  r_shift: 3
- l_pos: true
  l_idx: 0
  r_pos: true
  r_idx: 1
  r_shift: 5
- l_pos: true
  l_idx: 1
  r_pos: true
  r_idx: 2
  r_shift: 2
909:
- l_pos: false
  l_idx: 0
  r_pos: true
  r_idx: 0
  r_shift: 3
- l_pos: true
  l_idx: 1
  r_pos: true
  r_idx: 1
  r_shift: 6
- l_pos: false
  l_idx: 0
  r_pos: true
  r_idx: 2
  r_shift: 1
911:
- l_pos: false
  l_idx: 0
  r_pos: true
  r_idx: 0
  r_shift: 3
- l_pos: true
  l_idx: 0
  r_pos: true
  r_idx: 1
  r_shift: 3
- l_pos: false
  l_idx: 0
  r_pos: true
  r_idx: 2
  r_shift: 4
913:
- l_pos: false
  l_idx: 0
  r_pos: true
  r_idx: 0
  r_shift: 3
- l_pos: true
  l_idx: 0
  r_pos: true
  r_idx: 1
  r_shift: 3
- l_pos: true
  l_idx: 0
  r_pos: true
  r_idx: 2
  r_shift: 4
915:
- l_pos: false
  l_idx: 0
  r_pos: true
  r_idx: 0
  r_shift: 4
- l_pos: false
  l_idx: 1
  r_pos: true
  r_idx: 1
  r_shift: 4
- l_pos: true
  l_idx: 1
  r_pos: true
  r_idx: 2
  r_shift: 2
917:
- l_pos: false
  l_idx: 0
  r_pos: true
  r_idx: 0
  r_shift: 3
- l_pos: true
  l_idx: 1
  r_pos: true
  r_idx: 1
  r_shift: 5
- l_pos: false
  l_idx: 1
  r_pos: true
  r_idx: 2
  r_shift: 2
919:
- l_pos: false
  l_idx: 0
  r_pos: true
  r_idx: 0
  r_shift: 3
- l_pos: true
  l_idx: 0
  r_pos: true
  r_idx: 1
  r_shift: 3
- l_pos: true
  l_idx: 1
  r_pos: true
  r_idx: 2
  r_shift: 4
921:
- l_pos: false
  l_idx: 0
  r_pos: true
  r_idx: 0
  r_shift: 3
- l_pos: true
  l_idx: 0
  r_pos: true
  r_idx: 1
  r_shift: 2
- l_pos: false
  l_idx: 1
  r_pos: true
  r_idx: 2
  r_shift: 5
923:
- l_pos: false
  l_idx: 0
  r_pos: true
  r_idx: 0
  r_shift: 3
- l_pos: true
  l_idx: 1
  r_pos: true
  r_idx: 1
  r_shift: 5
- l_pos: false
  l_idx: 0
  r_pos: true
  r_idx: 2
  r_shift: 2
925:
- l_pos: false
  l_idx: 0
  r_pos: true
  r_idx: 0
  r_shift: 3
- l_pos: true
  l_idx: 1
  r_pos: true
  r_idx: 1
  r_shift: 5
- l_pos: true
  l_idx: 0
  r_pos: true
  r_idx: 2
  r_shift: 2
927:
- l_pos: false
  l_idx: 0
  r_pos: true
  r_idx: 0
  r_shift: 3
- l_pos: true
  l_idx: 0
  r_pos: true
  r_idx: 1
  r_shift: 2
- l_pos: false
  l_idx: 0
  r_pos: true
  r_idx: 2
  r_shift: 5
929:
- l_pos: false
  l_idx: 0
  r_pos: true
  r_idx: 0
  r_shift: 3
- l_pos: true
  l_idx: 0
  r_pos: true
  r_idx: 1
  r_shift: 2
- l_pos: true
  l_idx: 0
  r_pos: true
  r_idx: 2
  r_shift: 5
931:
- l_pos: false
  l_idx: 0
  r_pos: true
  r_idx: 0
  r_shift: 4
- l_pos: false
  l_idx: 1
  r_pos: true
  r_idx: 1
  r_shift: 5
- l_pos: true
  l_idx: 0
  r_pos: true
  r_idx: 2
  r_shift: 1
933:
- l_pos: false
  l_idx: 0
  r_pos: true
  r_idx: 0
  r_shift: 3
- l_pos: true
  l_idx: 0
  r_pos: true
  r_idx: 1
  r_shift: 2
- l_pos: true
  l_idx: 0
  r_pos: true
  r_idx: 2
  r_shift: 3
- l_pos: true
  l_idx: 0
  r_pos: true
  r_idx: 3
  r_shift: 2
935:
- l_pos: false
  l_idx: 0
  r_pos: true
  r_idx: 0
  r_shift: 3
- l_pos: true
  l_idx: 0
  r_pos: true
  r_idx: 1
  r_shift: 2
- l_pos: true
  l_idx: 1
  r_pos: true
  r_idx: 2
  r_shift: 5
937:
- l_pos: false
  l_idx: 0
  r_pos: true
  r_idx: 0
  r_shift: 4
- l_pos: false
  l_idx: 0
  r_pos: true
  r_idx: 1
  r_shift: 3
- l_pos: false
  l_idx: 1
  r_pos: true
  r_idx: 2
  r_shift: 3
939:
- l_pos: true
  l_idx: 0
  r_pos: true
  r_idx: 0
  r_shift: 2
- l_pos: false
  l_idx: 1
  r_pos: true
  r_idx: 0
  r_shift: 6
- l_pos: false
  l_idx: 1
  r_pos: true
  r_idx: 2
  r_shift: 4
941:
- l_pos: false
  l_idx: 0
  r_pos: true
  r_idx: 0
  r_shift: 4
- l_pos: false
  l_idx: 0
  r_pos: true
  r_idx: 1
  r_shift: 4
- l_pos: false
  l_idx: 1
  r_pos: true
  r_idx: 2
  r_shift: 2
943:
- l_pos: false
  l_idx: 0
  r_pos: true
  r_idx: 0
  r_shift: 4
- l_pos: false
  l_idx: 0
  r_pos: true
  r_idx: 1
  r_shift: 2
- l_pos: false
  l_idx: 0
  r_pos: true
  r_idx: 2
  r_shift: 4
945:
- l_pos: false
  l_idx: 0
  r_pos: true
  r_idx: 0
  r_shift: 4
- l_pos: false
  l_idx: 1
  r_pos: true
  r_idx: 1
  r_shift: 6
947:
- l_pos: false
  l_idx: 0
  r_pos: true
  r_idx: 0
  r_shift: 4
- l_pos: true
  l_idx: 0
  r_pos: true
  r_idx: 1
  r_shift: 5
- l_pos: false
  l_idx: 1
  r_pos: true
  r_idx: 2
  r_shift: 1
949:
- l_pos: true
  l_idx: 0
  r_pos: true
  r_idx: 0
  r_shift: 2
- l_pos: false
  l_idx: 1
  r_pos: true
  r_idx: 0
  r_shift: 6
- l_pos: true
  l_idx: 1
  r_pos: true
  r_idx: 2
  r_shift: 4
951:
- l_pos: false
  l_idx: 0
  r_pos: true
  r_idx: 0
  r_shift: 4
- l_pos: false
  l_idx: 0
  r_pos: true
  r_idx: 1
  r_shift: 3
- l_pos: false
  l_idx: 0
  r_pos: true
  r_idx: 2
  r_shift: 3
953:
- l_pos: false
  l_idx: 0
  r_pos: true
  r_idx: 0
  r_shift: 4
- l_pos: false
  l_idx: 0
  r_pos: true
  r_idx: 1
  r_shift: 3
- l_pos: true
  l_idx: 0
  r_pos: true
  r_idx: 2
  r_shift: 3
955:
- l_pos: false
  l_idx: 0
  r_pos: true
  r_idx: 0
  r_shift: 4
- l_pos: false
  l_idx: 0
  r_pos: true
  r_idx: 1
  r_shift: 4
- l_pos: false
  l_idx: 0
  r_pos: true
  r_idx: 2
  r_shift: 2
957:
- l_pos: false
  l_idx: 0
  r_pos: true
  r_idx: 0
  r_shift: 4
- l_pos: false
  l_idx: 0
  r_pos: true
  r_idx: 1
  r_shift: 4
- l_pos: true
  l_idx: 0
  r_pos: true
  r_idx: 2
  r_shift: 2
959:
- l_pos: false
  l_idx: 0
  r_pos: true
  r_idx: 0
  r_shift: 4
- l_pos: false
  l_idx: 0
  r_pos: true
  r_idx: 1
  r_shift: 6
".
Definition text_16 : string := "961:
- l_pos: false
  l_idx: 0
  r_pos: true
  r_idx: 0
  r_shift: 4
- l_pos: true
  l_idx: 0
  r_pos: true
  r_idx: 1
  r_shift: 6
963:
- l_pos: false
  l_idx: 0
  r_pos: true
  r_idx: 0
  r_shift: 4
- l_pos: true
  l_idx: 0
  r_pos: true
  r_idx: 1
  r_shift: 4
- l_pos: false
  l_idx: 0
  r_pos: true
  r_idx: 2
  r_shift: 2
965:
- l_pos: false
  l_idx: 0
  r_pos: true
  r_idx: 0
  r_shift: 4
- l_pos: true
  l_idx: 0
  r_pos: true
  r_idx: 1
  r_shift: 4
- l_pos: true
  l_idx: 0
  r_pos: true
  r_idx: 2
  r_shift: 2
967:
- l_pos: false
  l_idx: 0
  r_pos: true
  r_idx: 0
  r_shift: 4
- l_pos: true
  l_idx: 0
  r_pos: true
  r_idx: 1
  r_shift: 3
- l_pos: false
  l_idx: 0
  r_pos: true
  r_idx: 2
  r_shift: 3
969:
- l_pos: false
  l_idx: 0
  r_pos: true
  r_idx: 0
  r_shift: 4
- l_pos: true
  l_idx: 0
  r_pos: true
  r_idx: 1
  r_shift: 3
- l_pos: true
  l_idx: 0
  r_pos: true
  r_idx: 2
  r_shift: 3
971:
- l_pos: false
  l_idx: 0
  r_pos: true
  r_idx: 0
  r_shift: 4
- l_pos: false
  l_idx: 0
  r_pos: true
  r_idx: 1
  r_shift: 4
- l_pos: true
  l_idx: 1
  r_pos: true
  r_idx: 2
  r_shift: 2
973:
- l_pos: true
  l_idx: 0
  r_pos: true
  r_idx: 0
  r_shift: 1
- l_pos: false
  l_idx: 1
  r_pos: true
  r_idx: 0
  r_shift: 6
- l_pos: false
  l_idx: 1
  r_pos: true
  r_idx: 2
  r_shift: 4
975:
- l_pos: false
  l_idx: 0
  r_pos: true
  r_idx: 0
  r_shift: 4
- l_pos: true
  l_idx: 1
  r_pos: true
  r_idx: 1
  r_shift: 6
977:
- l_pos: false
  l_idx: 0
  r_pos: true
  r_idx: 0
  r_shift: 4
- l_pos: true
  l_idx: 0
  r_pos: true
  r_idx: 1
  r_shift: 2
- l_pos: true
  l_idx: 0
  r_pos: true
  r_idx: 2
  r_shift: 4
979:
- l_pos: true
  l_idx: 0
  r_pos: true
  r_idx: 0
  r_shift: 1
- l_pos: false
  l_idx: 1
  r_pos: true
  r_idx: 0
  r_shift: 6
- l_pos: true
  l_idx: 1
  r_pos: true
  r_idx: 2
  r_shift: 4
981:
- l_pos: false
  l_idx: 0
  r_pos: true
  r_idx: 0
  r_shift: 4
- l_pos: true
  l_idx: 0
  r_pos: true
  r_idx: 1
  r_shift: 2
- l_pos: true
  l_idx: 0
  r_pos: true
  r_idx: 2
  r_shift: 2
- l_pos: true
  l_idx: 0
  r_pos: true
  r_idx: 3
  r_shift: 2
983:
- l_pos: false
  l_idx: 0
  r_pos: true
  r_idx: 0
  r_shift: 5
- l_pos: false
  l_idx: 0
  r_pos: true
  r_idx: 1
  r_shift: 2
- l_pos: false
  l_idx: 0
  r_pos: true
  r_idx: 2
  r_shift: 3
985:
- l_pos: false
  l_idx: 0
  r_pos: true
  r_idx: 0
  r_shift: 5
- l_pos: false
  l_idx: 0
  r_pos: true
  r_idx: 1
  r_shift: 2
- l_pos: true
  l_idx: 0
  r_pos: true
  r_idx: 2
  r_shift: 3
987:
- l_pos: false
  l_idx: 0
  r_pos: true
  r_idx: 0
  r_shift: 5
- l_pos: false
  l_idx: 0
  r_pos: true
  r_idx: 1
  r_shift: 3
- l_pos: false
  l_idx: 0
  r_pos: true
  r_idx: 2
  r_shift: 2
989:
- l_pos: false
  l_idx: 0
  r_pos: true
  r_idx: 0
  r_shift: 5
- l_pos: false
  l_idx: 0
  r_pos: true
  r_idx: 1
  r_shift: 3
- l_pos: true
  l_idx: 0
  r_pos: true
  r_idx: 2
  r_shift: 2
991:
- l_pos: false
  l_idx: 0
  r_pos: true
  r_idx: 0
  r_shift: 5
- l_pos: false
  l_idx: 0
  r_pos: true
  r_idx: 1
  r_shift: 5
993:
- l_pos: false
  l_idx: 0
  r_pos: true
  r_idx: 0
  r_shift: 5
- l_pos: true
  l_idx: 0
  r_pos: true
  r_idx: 1
  r_shift: 5
995:
- l_pos: false
  l_idx: 0
  r_pos: true
  r_idx: 0
  r_shift: 5
- l_pos: true
  l_idx: 0
  r_pos: true
  r_idx: 1
  r_shift: 3
- l_pos: false
  l_idx: 0
  r_pos: true
  r_idx: 2
  r_shift: 2
997:
- l_pos: false
  l_idx: 0
  r_pos: true
  r_idx: 0
  r_shift: 5
- l_pos: true
  l_idx: 0
  r_pos: true
  r_idx: 1
  r_shift: 3
- l_pos: true
  l_idx: 0
  r_pos: true
  r_idx: 2
  r_shift: 2
999:
- l_pos: false
  l_idx: 0
  r_pos: true
  r_idx: 0
  r_shift: 5
- l_pos: true
  l_idx: 0
  r_pos: true
  r_idx: 1
  r_shift: 2
- l_pos: false
  l_idx: 0
  r_pos: true
  r_idx: 2
  r_shift: 3
1001:
- l_pos: false
  l_idx: 0
  r_pos: true
  r_idx: 0
  r_shift: 5
- l_pos: true
  l_idx: 0
  r_pos: true
  r_idx: 1
  r_shift: 2
- l_pos: true
  l_idx: 0
  r_pos: true
  r_idx: 2
  r_shift: 3
1003:
- l_pos: false
  l_idx: 0
  r_pos: true
  r_idx: 0
  r_shift: 6
- l_pos: false
  l_idx: 0
  r_pos: true
  r_idx: 1
  r_shift: 2
- l_pos: false
  l_idx: 0
  r_pos: true
  r_idx: 2
  r_shift: 2
1005:
- l_pos: false
  l_idx: 0
  r_pos: true
  r_idx: 0
  r_shift: 6
- l_pos: false
  l_idx: 0
  r_pos: true
  r_idx: 1
  r_shift: 2
- l_pos: true
  l_idx: 0
  r_pos: true
  r_idx: 2
  r_shift: 2
1007:
- l_pos: false
  l_idx: 0
  r_pos: true
  r_idx: 0
  r_shift: 6
- l_pos: false
  l_idx: 0
  r_pos: true
  r_idx: 1
  r_shift: 4
1009:
- l_pos: false
  l_idx: 0
  r_pos: true
  r_idx: 0
  r_shift: 6
- l_pos: true
  l_idx: 0
  r_pos: true
  r_idx: 1
  r_shift: 4
1011:
- l_pos: false
  l_idx: 0
  r_pos: true
  r_idx: 0
  r_shift: 6
- l_pos: true
  l_idx: 0
  r_pos: true
  r_idx: 1
  r_shift: 2
- l_pos: false
  l_idx: 0
  r_pos: true
  r_idx: 2
  r_shift: 2
1013:
- l_pos: false
  l_idx: 0
  r_pos: true
  r_idx: 0
  r_shift: 6
- l_pos: true
  l_idx: 0
  r_pos: true
  r_idx: 1
  r_shift: 2
- l_pos: true
  l_idx: 0
  r_pos: true
  r_idx: 2
  r_shift: 2
1015:
- l_pos: false
  l_idx: 0
  r_pos: true
  r_idx: 0
  r_shift: 7
- l_pos: false
  l_idx: 0
  r_pos: true
  r_idx: 1
  r_shift: 3
1017:
- l_pos: false
  l_idx: 0
  r_pos: true
  r_idx: 0
  r_shift: 7
- l_pos: true
  l_idx: 0
  r_pos: true
  r_idx: 1
  r_shift: 3
1019:
- l_pos: false
  l_idx: 0
  r_pos: true
  r_idx: 0
  r_shift: 8
- l_pos: false
  l_idx: 0
  r_pos: true
  r_idx: 1
  r_shift: 2
1021:
- l_pos: false
  l_idx: 0
  r_pos: true
  r_idx: 0
  r_shift: 8
- l_pos: true
  l_idx: 0
  r_pos: true
  r_idx: 1
  r_shift: 2
1023:
- l_pos: false
  l_idx: 0
  r_pos: true
  r_idx: 0
  r_shift: 10
".
Definition text_17 : string := "1025:
- l_pos: true
  l_idx: 0
  r_pos: true
  r_idx: 0
  r_shift: 10
1027:
- l_pos: true
  l_idx: 0
  r_pos: true
  r_idx: 0
  r_shift: 8
- l_pos: false
  l_idx: 0
  r_pos: true
  r_idx: 1
  r_shift: 2
1029:
- l_pos: true
  l_idx: 0
  r_pos: true
  r_idx: 0
  r_shift: 8
- l_pos: true
  l_idx: 0
  r_pos: true
  r_idx: 1
  r_shift: 2
1031:
- l_pos: true
  l_idx: 0
  r_pos: true
  r_idx: 0
  r_shift: 7
- l_pos: false
  l_idx: 0
  r_pos: true
  r_idx: 1
  r_shift: 3
1033:
- l_pos: true
  l_idx: 0
  r_pos: true
  r_idx: 0
  r_shift: 7
- l_pos: true
  l_idx: 0
  r_pos: true
  r_idx: 1
  r_shift: 3
1035:
- l_pos: true
  l_idx: 0
  r_pos: true
  r_idx: 0
  r_shift: 6
- l_pos: false
  l_idx: 0
  r_pos: true
  r_idx: 1
  r_shift: 2
- l_pos: false
  l_idx: 0
  r_pos: true
  r_idx: 2
  r_shift: 2
1037:
- l_pos: true
  l_idx: 0
  r_pos: true
  r_idx: 0
  r_shift: 6
- l_pos: false
  l_idx: 0
  r_pos: true
  r_idx: 1
  r_shift: 2
- l_pos: true
  l_idx: 0
  r_pos: true
  r_idx: 2
  r_shift: 2
1039:
- l_pos: true
  l_idx: 0
  r_pos: true
  r_idx: 0
  r_shift: 6
- l_pos: false
  l_idx: 0
  r_pos: true
  r_idx: 1
  r_shift: 4
1041:
- l_pos: true
  l_idx: 0
  r_pos: true
  r_idx: 0
  r_shift: 6
- l_pos: true
  l_idx: 0
  r_pos: true
  r_idx: 1
  r_shift: 4
1043:
- l_pos: true
  l_idx: 0
  r_pos: true
  r_idx: 0
  r_shift: 6
- l_pos: true
  l_idx: 0
  r_pos: true
  r_idx: 1
  r_shift: 2
- l_pos: false
  l_idx: 0
  r_pos: true
  r_idx: 2
  r_shift: 2
1045:
- l_pos: true
  l_idx: 0
  r_pos: true
  r_idx: 0
  r_shift: 6
- l_pos: true
  l_idx: 0
  r_pos: true
  r_idx: 1
  r_shift: 2
- l_pos: true
  l_idx: 0
  r_pos: true
  r_idx: 2
  r_shift: 2
1047:
- l_pos: true
  l_idx: 0
  r_pos: true
  r_idx: 0
  r_shift: 5
- l_pos: false
  l_idx: 0
  r_pos: true
  r_idx: 1
  r_shift: 2
- l_pos: false
  l_idx: 0
  r_pos: true
  r_idx: 2
  r_shift: 3
1049:
- l_pos: true
  l_idx: 0
  r_pos: true
  r_idx: 0
  r_shift: 5
- l_pos: false
  l_idx: 0
  r_pos: true
  r_idx: 1
  r_shift: 2
- l_pos: true
  l_idx: 0
  r_pos: true
  r_idx: 2
  r_shift: 3
1051:
- l_pos: true
  l_idx: 0
  r_pos: true
  r_idx: 0
  r_shift: 5
- l_pos: false
  l_idx: 0
  r_pos: true
  r_idx: 1
  r_shift: 3
- l_pos: false
  l_idx: 0
  r_pos: true
  r_idx: 2
  r_shift: 2
1053:
- l_pos: true
  l_idx: 0
  r_pos: true
  r_idx: 0
  r_shift: 5
- l_pos: false
  l_idx: 0
  r_pos: true
  r_idx: 1
  r_shift: 3
- l_pos: true
  l_idx: 0
  r_pos: true
  r_idx: 2
  r_shift: 2
1055:
- l_pos: true
  l_idx: 0
  r_pos: true
  r_idx: 0
  r_shift: 5
- l_pos: false
  l_idx: 0
  r_pos: true
  r_idx: 1
  r_shift: 5
1057:
- l_pos: true
  l_idx: 0
  r_pos: true
  r_idx: 0
  r_shift: 5
- l_pos: true
  l_idx: 0
  r_pos: true
  r_idx: 1
  r_shift: 5
1059:
- l_pos: true
  l_idx: 0
  r_pos: true
  r_idx: 0
  r_shift: 5
- l_pos: true
  l_idx: 0
  r_pos: true
  r_idx: 1
  r_shift: 3
- l_pos: false
  l_idx: 0
  r_pos: true
  r_idx: 2
  r_shift: 2
1061:
- l_pos: true
  l_idx: 0
  r_pos: true
  r_idx: 0
  r_shift: 5
- l_pos: true
  l_idx: 0
  r_pos: true
  r_idx: 1
  r_shift: 3
- l_pos: true
  l_idx: 0
  r_pos: true
  r_idx: 2
  r_shift: 2
1063:
- l_pos: true
  l_idx: 0
  r_pos: true
  r_idx: 0
  r_shift: 5
- l_pos: true
  l_idx: 0
  r_pos: true
  r_idx: 1
  r_shift: 2
- l_pos: false
  l_idx: 0
  r_pos: true
  r_idx: 2
  r_shift: 3
1065:
- l_pos: true
  l_idx: 0
  r_pos: true
  r_idx: 0
  r_shift: 5
- l_pos: true
  l_idx: 0
  r_pos: true
  r_idx: 1
  r_shift: 2
- l_pos: true
  l_idx: 0
  r_pos: true
  r_idx: 2
  r_shift: 3
1067:
- l_pos: true
  l_idx: 0
  r_pos: true
  r_idx: 0
  r_shift: 4
- l_pos: false
  l_idx: 0
  r_pos: true
  r_idx: 1
  r_shift: 4
- l_pos: false
  l_idx: 1
  r_pos: true
  r_idx: 2
  r_shift: 2
1069:
- l_pos: true
  l_idx: 0
  r_pos: true
  r_idx: 0
  r_shift: 1
- l_pos: true
  l_idx: 1
  r_pos: true
  r_idx: 0
  r_shift: 6
- l_pos: false
  l_idx: 1
  r_pos: true
  r_idx: 2
  r_shift: 4
1071:
- l_pos: true
  l_idx: 0
  r_pos: true
  r_idx: 0
  r_shift: 4
- l_pos: false
  l_idx: 1
  r_pos: true
  r_idx: 1
  r_shift: 6
1073:
- l_pos: true
  l_idx: 0
  r_pos: true
  r_idx: 0
  r_shift: 4
- l_pos: false
  l_idx: 0
  r_pos: true
  r_idx: 1
  r_shift: 2
- l_pos: true
  l_idx: 0
  r_pos: true
  r_idx: 2
  r_shift: 4
1075:
- l_pos: true
  l_idx: 0
  r_pos: true
  r_idx: 0
  r_shift: 1
- l_pos: true
  l_idx: 1
  r_pos: true
  r_idx: 0
  r_shift: 6
- l_pos: true
  l_idx: 1
  r_pos: true
  r_idx: 2
  r_shift: 4
1077:
- l_pos: true
  l_idx: 0
  r_pos: true
  r_idx: 0
  r_shift: 4
- l_pos: false
  l_idx: 0
  r_pos: true
  r_idx: 1
  r_shift: 2
- l_pos: true
  l_idx: 0
  r_pos: true
  r_idx: 2
  r_shift: 2
- l_pos: true
  l_idx: 0
  r_pos: true
  r_idx: 3
  r_shift: 2
1079:
- l_pos: true
  l_idx: 0
  r_pos: true
  r_idx: 0
  r_shift: 4
- l_pos: false
  l_idx: 0
  r_pos: true
  r_idx: 1
  r_shift: 3
- l_pos: false
  l_idx: 0
  r_pos: true
  r_idx: 2
  r_shift: 3
1081:
- l_pos: true
  l_idx: 0
  r_pos: true
  r_idx: 0
  r_shift: 4
- l_pos: false
  l_idx: 0
  r_pos: true
  r_idx: 1
  r_shift: 3
- l_pos: true
  l_idx: 0
  r_pos: true
  r_idx: 2
  r_shift: 3
1083:
- l_pos: true
  l_idx: 0
  r_pos: true
  r_idx: 0
  r_shift: 4
- l_pos: false
  l_idx: 0
  r_pos: true
  r_idx: 1
  r_shift: 4
- l_pos: false
  l_idx: 0
  r_pos: true
  r_idx: 2
  r_shift: 2
1085:
- l_pos: true
  l_idx: 0
  r_pos: true
  r_idx: 0
  r_shift: 4
- l_pos: false
  l_idx: 0
  r_pos: true
  r_idx: 1
  r_shift: 4
- l_pos: true
  l_idx: 0
  r_pos: true
  r_idx: 2
  r_shift: 2
1087:
- l_pos: true
  l_idx: 0
  r_pos: true
  r_idx: 0
  r_shift: 4
- l_pos: false
  l_idx: 0
  r_pos: true
  r_idx: 1
  r_shift: 6
".
Definition text_18 : string := "1089:
- l_pos: true
  l_idx: 0
  r_pos: true
  r_idx: 0
  r_shift: 4
- l_pos: true
  l_idx: 0
  r_pos: true
  r_idx: 1
  r_shift: 6
1091:
- l_pos: true
  l_idx: 0
  r_pos: true
  r_idx: 0
  r_shift: 4
- l_pos: true
  l_idx: 0
  r_pos: true
  r_idx: 1
  r_shift: 4
- l_pos: false
  l_idx: 0
  r_pos: true
  r_idx: 2
  r_shift: 2
1093:
- l_pos: true
  l_idx: 0
  r_pos: true
  r_idx: 0
  r_shift: 4
- l_pos: true
  l_idx: 0
  r_pos: true
  r_idx: 1
  r_shift: 4
- l_pos: true
  l_idx: 0
  r_pos: true
  r_idx: 2
  r_shift: 2
1095:
- l_pos: true
  l_idx: 0
  r_pos: true
  r_idx: 0
  r_shift: 4
- l_pos: true
  l_idx: 0
  r_pos: true
  r_idx: 1
  r_shift: 3
- l_pos: false
  l_idx: 0
  r_pos: true
  r_idx: 2
  r_shift: 3
1097:
- l_pos: true
  l_idx: 0
  r_pos: true
  r_idx: 0
  r_shift: 4
- l_pos: true
  l_idx: 0
  r_pos: true
  r_idx: 1
  r_shift: 3
- l_pos: true
  l_idx: 0
  r_pos: true
  r_idx: 2
  r_shift: 3
1099:
- l_pos: true
  l_idx: 0
  r_pos: true
  r_idx: 0
  r_shift: 2
- l_pos: true
  l_idx: 1
  r_pos: true
  r_idx: 0
  r_shift: 6
- l_pos: false
  l_idx: 1
  r_pos: true
  r_idx: 2
  r_shift: 4
1101:
- l_pos: true
  l_idx: 0
  r_pos: true
  r_idx: 0
  r_shift: 4
- l_pos: false
  l_idx: 0
  r_pos: true
  r_idx: 1
  r_shift: 4
- l_pos: true
  l_idx: 1
  r_pos: true
  r_idx: 2
  r_shift: 2
1103:
- l_pos: true
  l_idx: 0
  r_pos: true
  r_idx: 0
  r_shift: 4
- l_pos: true
  l_idx: 0
  r_pos: true
  r_idx: 1
  r_shift: 2
- l_pos: false
  l_idx: 0
  r_pos: true
  r_idx: 2
  r_shift: 4
1105:
- l_pos: true
  l_idx: 0
  r_pos: true
  r_idx: 0
  r_shift: 4
- l_pos: true
  l_idx: 1
  r_pos: true
  r_idx: 1
  r_shift: 6
1107:
- l_pos: true
  l_idx: 0
  r_pos: true
  r_idx: 0
  r_shift: 3
- l_pos: false
  l_idx: 1
  r_pos: true
  r_idx: 1
  r_shift: 5
- l_pos: false
  l_idx: 1
  r_pos: true
  r_idx: 2
  r_shift: 2
1109:
- l_pos: true
  l_idx: 0
  r_pos: true
  r_idx: 0
  r_shift: 2
- l_pos: true
  l_idx: 1
  r_pos: true
  r_idx: 0
  r_shift: 6
- l_pos: true
  l_idx: 1
  r_pos: true
  r_idx: 2
  r_shift: 4
1111:
- l_pos: true
  l_idx: 0
  r_pos: true
  r_idx: 0
  r_shift: 3
- l_pos: false
  l_idx: 0
  r_pos: true
  r_idx: 1
  r_shift: 2
- l_pos: false
  l_idx: 1
  r_pos: true
  r_idx: 2
  r_shift: 5
1113:
- l_pos: false
  l_idx: 0
  r_pos: true
  r_idx: 0
  r_shift: 3
- l_pos: true
  l_idx: 1
  r_pos: true
  r_idx: 1
  r_shift: 2
- l_pos: false
  l_idx: 1
  r_pos: true
  r_idx: 2
  r_shift: 5
1115:
- l_pos: true
  l_idx: 0
  r_pos: true
  r_idx: 0
  r_shift: 3
- l_pos: false
  l_idx: 1
  r_pos: true
  r_idx: 1
  r_shift: 5
- l_pos: false
  l_idx: 0
  r_pos: true
  r_idx: 2
  r_shift: 2
1117:
- l_pos: true
  l_idx: 0
  r_pos: true
  r_idx: 0
  r_shift: 3
- l_pos: false
  l_idx: 1
  r_pos: true
  r_idx: 1
  r_shift: 5
- l_pos: true
  l_idx: 0
  r_pos: true
  r_idx: 2
  r_shift: 2
1119:
- l_pos: true
  l_idx: 0
  r_pos: true
  r_idx: 0
  r_shift: 3
- l_pos: false
  l_idx: 0
  r_pos: true
  r_idx: 1
  r_shift: 2
- l_pos: false
  l_idx: 0
  r_pos: true
  r_idx: 2
  r_shift: 5
1121:
- l_pos: true
  l_idx: 0
  r_pos: true
  r_idx: 0
  r_shift: 3
- l_pos: false
  l_idx: 0
  r_pos: true
  r_idx: 1
  r_shift: 2
- l_pos: true
  l_idx: 0
  r_pos: true
  r_idx: 2
  r_shift: 5
1123:
- l_pos: true
  l_idx: 0
  r_pos: true
  r_idx: 0
  r_shift: 4
- l_pos: true
  l_idx: 1
  r_pos: true
  r_idx: 1
  r_shift: 5
- l_pos: true
  l_idx: 0
  r_pos: true
  r_idx: 2
  r_shift: 1
1125:
- l_pos: true
  l_idx: 0
  r_pos: true
  r_idx: 0
  r_shift: 2
- l_pos: false
  l_idx: 1
  r_pos: true
  r_idx: 1
  r_shift: 3
- l_pos: true
  l_idx: 1
  r_pos: true
  r_idx: 2
  r_shift: 5
1127:
- l_pos: true
  l_idx: 0
  r_pos: true
  r_idx: 0
  r_shift: 3
- l_pos: false
  l_idx: 0
  r_pos: true
  r_idx: 1
  r_shift: 3
- l_pos: false
  l_idx: 1
  r_pos: true
  r_idx: 2
  r_shift: 4
1129:
- l_pos: true
  l_idx: 0
  r_pos: true
  r_idx: 0
  r_shift: 3
- l_pos: false
  l_idx: 0
  r_pos: true
  r_idx: 1
  r_shift: 2
- l_pos: true
  l_idx: 1
  r_pos: true
  r_idx: 2
  r_shift: 5
1131:
- l_pos: true
  l_idx: 0
  r_pos: true
  r_idx: 0
  r_shift: 3
- l_pos: false
  l_idx: 0
  r_pos: true
  r_idx: 1
  r_shift: 3
- l_pos: false
  l_idx: 0
  r_pos: true
  r_idx: 2
  r_shift: 2
- l_pos: false
  l_idx: 0
  r_pos: true
  r_idx: 3
  r_shift: 2
1133:
- l_pos: true
  l_idx: 0
  r_pos: true
  r_idx: 0
  r_shift: 3
- l_pos: false
  l_idx: 1
  r_pos: true
  r_idx: 1
  r_shift: 6
- l_pos: false
  l_idx: 0
  r_pos: true
  r_idx: 2
  r_shift: 1
1135:
- l_pos: true
  l_idx: 0
  r_pos: true
  r_idx: 0
  r_shift: 3
- l_pos: false
  l_idx: 0
  r_pos: true
  r_idx: 1
  r_shift: 3
- l_pos: false
  l_idx: 0
  r_pos: true
  r_idx: 2
  r_shift: 4
1137:
- l_pos: true
  l_idx: 0
  r_pos: true
  r_idx: 0
  r_shift: 3
- l_pos: false
  l_idx: 0
  r_pos: true
  r_idx: 1
  r_shift: 3
- l_pos: true
  l_idx: 0
  r_pos: true
  r_idx: 2
  r_shift: 4
1139:
- l_pos: true
  l_idx: 0
  r_pos: true
  r_idx: 0
  r_shift: 3
- l_pos: false
  l_idx: 0
  r_pos: true
  r_idx: 1
  r_shift: 5
- l_pos: false
  l_idx: 1
  r_pos: true
  r_idx: 2
  r_shift: 2
1141:
- l_pos: true
  l_idx: 0
  r_pos: true
  r_idx: 0
  r_shift: 3
- l_pos: false
  l_idx: 0
  r_pos: true
  r_idx: 1
  r_shift: 6
- l_pos: false
  l_idx: 1
  r_pos: true
  r_idx: 2
  r_shift: 1
1143:
- l_pos: true
  l_idx: 0
  r_pos: true
  r_idx: 0
  r_shift: 3
- l_pos: false
  l_idx: 1
  r_pos: true
  r_idx: 1
  r_shift: 7
1145:
- l_pos: true
  l_idx: 0
  r_pos: true
  r_idx: 0
  r_shift: 3
- l_pos: false
  l_idx: 0
  r_pos: true
  r_idx: 1
  r_shift: 4
- l_pos: true
  l_idx: 0
  r_pos: true
  r_idx: 2
  r_shift: 3
1147:
- l_pos: true
  l_idx: 0
  r_pos: true
  r_idx: 0
  r_shift: 3
- l_pos: false
  l_idx: 0
  r_pos: true
  r_idx: 1
  r_shift: 5
- l_pos: false
  l_idx: 0
  r_pos: true
  r_idx: 2
  r_shift: 2
1149:
- l_pos: true
  l_idx: 0
  r_pos: true
  r_idx: 0
  r_shift: 3
- l_pos: false
  l_idx: 0
  r_pos: true
  r_idx: 1
  r_shift: 5
- l_pos: true
  l_idx: 0
  r_pos: true
  r_idx: 2
  r_shift: 2
1151:
- l_pos: true
  l_idx: 0
  r_pos: true
  r_idx: 0
  r_shift: 3
- l_pos: false
  l_idx: 0
  r_pos: true
  r_idx: 1
  r_shift: 7
".
Definition text_19 : string := "1153:
- l_pos: true
  l_idx: 0
  r_pos: true
  r_idx: 0
  r_shift: 3
- l_pos: true
  l_idx: 0
  r_pos: true
  r_idx: 1
  r_shift: 7
1155:
- l_pos: true
  l_idx: 0
  r_pos: true
  r_idx: 0
  r_shift: 3
- l_pos: true
  l_idx: 0
  r_pos: true
  r_idx: 1
  r_shift: 5
- l_pos: false
  l_idx: 0
  r_pos: true
  r_idx: 2
  r_shift: 2
1157:
- l_pos: true
  l_idx: 0
  r_pos: true
  r_idx: 0
  r_shift: 3
- l_pos: true
  l_idx: 0
  r_pos: true
  r_idx: 1
  r_shift: 5
- l_pos: true
  l_idx: 0
  r_pos: true
  r_idx: 2
  r_shift: 2
1159:
- l_pos: true
  l_idx: 0
  r_pos: true
  r_idx: 0
  r_shift: 3
- l_pos: true
  l_idx: 0
  r_pos: true
  r_idx: 1
  r_shift: 4
- l_pos: false
  l_idx: 0
  r_pos: true
  r_idx: 2
  r_shift: 3
1161:
- l_pos: true
  l_idx: 0
  r_pos: true
  r_idx: 0
  r_shift: 3
- l_pos: true
  l_idx: 1
  r_pos: true
  r_idx: 1
  r_shift: 7
1163:
- l_pos: true
  l_idx: 0
  r_pos: true
  r_idx: 0
  r_shift: 3
- l_pos: true
  l_idx: 0
  r_pos: true
  r_idx: 1
  r_shift: 6
- l_pos: true
  l_idx: 1
  r_pos: true
  r_idx: 2
  r_shift: 1
1165:
- l_pos: true
  l_idx: 0
  r_pos: true
  r_idx: 0
  r_shift: 3
- l_pos: true
  l_idx: 0
  r_pos: true
  r_idx: 1
  r_shift: 5
- l_pos: true
  l_idx: 1
  r_pos: true
  r_idx: 2
  r_shift: 2
1167:
- l_pos: true
  l_idx: 0
  r_pos: true
  r_idx: 0
  r_shift: 3
- l_pos: true
  l_idx: 0
  r_pos: true
  r_idx: 1
  r_shift: 3
- l_pos: false
  l_idx: 0
  r_pos: true
  r_idx: 2
  r_shift: 4
1169:
- l_pos: true
  l_idx: 0
  r_pos: true
  r_idx: 0
  r_shift: 3
- l_pos: true
  l_idx: 0
  r_pos: true
  r_idx: 1
  r_shift: 3
- l_pos: true
  l_idx: 0
  r_pos: true
  r_idx: 2
  r_shift: 4
1171:
- l_pos: true
  l_idx: 0
  r_pos: true
  r_idx: 0
  r_shift: 3
- l_pos: true
  l_idx: 1
  r_pos: true
  r_idx: 1
  r_shift: 6
- l_pos: true
  l_idx: 0
  r_pos: true
  r_idx: 2
  r_shift: 1
1173:
- l_pos: true
  l_idx: 0
  r_pos: true
  r_idx: 0
  r_shift: 4
- l_pos: true
  l_idx: 1
  r_pos: true
  r_idx: 1
  r_shift: 4
- l_pos: true
  l_idx: 1
  r_pos: true
  r_idx: 2
  r_shift: 2
1175:
- l_pos: true
  l_idx: 0
  r_pos: true
  r_idx: 0
  r_shift: 3
- l_pos: true
  l_idx: 0
  r_pos: true
  r_idx: 1
  r_shift: 2
- l_pos: false
  l_idx: 1
  r_pos: true
  r_idx: 2
  r_shift: 5
1177:
- l_pos: true
  l_idx: 0
  r_pos: true
  r_idx: 0
  r_shift: 3
- l_pos: true
  l_idx: 0
  r_pos: true
  r_idx: 1
  r_shift: 3
- l_pos: true
  l_idx: 1
  r_pos: true
  r_idx: 2
  r_shift: 4
1179:
- l_pos: true
  l_idx: 0
  r_pos: true
  r_idx: 0
  r_shift: 2
- l_pos: true
  l_idx: 1
  r_pos: true
  r_idx: 0
  r_shift: 5
- l_pos: false
  l_idx: 1
  r_pos: true
  r_idx: 2
  r_shift: 5
1181:
- l_pos: true
  l_idx: 0
  r_pos: true
  r_idx: 0
  r_shift: 3
- l_pos: true
  l_idx: 0
  r_pos: true
  r_idx: 1
  r_shift: 2
- l_pos: false
  l_idx: 0
  r_pos: true
  r_idx: 2
  r_shift: 3
- l_pos: true
  l_idx: 0
  r_pos: true
  r_idx: 3
  r_shift: 2
1183:
- l_pos: true
  l_idx: 0
  r_pos: true
  r_idx: 0
  r_shift: 3
- l_pos: true
  l_idx: 0
  r_pos: true
  r_idx: 1
  r_shift: 2
- l_pos: false
  l_idx: 0
  r_pos: true
  r_idx: 2
  r_shift: 5
1185:
- l_pos: true
  l_idx: 0
  r_pos: true
  r_idx: 0
  r_shift: 3
- l_pos: true
  l_idx: 0
  r_pos: true
  r_idx: 1
  r_shift: 2
- l_pos: true
  l_idx: 0
  r_pos: true
  r_idx: 2
  r_shift: 5
1187:
- l_pos: true
  l_idx: 0
  r_pos: true
  r_idx: 0
  r_shift: 3
- l_pos: true
  l_idx: 1
  r_pos: true
  r_idx: 1
  r_shift: 5
- l_pos: false
  l_idx: 0
  r_pos: true
  r_idx: 2
  r_shift: 2
1189:
- l_pos: true
  l_idx: 0
  r_pos: true
  r_idx: 0
  r_shift: 3
- l_pos: true
  l_idx: 1
  r_pos: true
  r_idx: 1
  r_shift: 5
- l_pos: true
  l_idx: 0
  r_pos: true
  r_idx: 2
  r_shift: 2
1191:
- l_pos: true
  l_idx: 0
  r_pos: true
  r_idx: 0
  r_shift: 3
- l_pos: true
  l_idx: 0
  r_pos: true
  r_idx: 1
  r_shift: 2
- l_pos: true
  l_idx: 0
  r_pos: true
  r_idx: 2
  r_shift: 2
- l_pos: false
  l_idx: 0
  r_pos: true
  r_idx: 3
  r_shift: 3
1193:
- l_pos: true
  l_idx: 0
  r_pos: true
  r_idx: 0
  r_shift: 3
- l_pos: true
  l_idx: 0
  r_pos: true
  r_idx: 1
  r_shift: 2
- l_pos: true
  l_idx: 1
  r_pos: true
  r_idx: 2
  r_shift: 5
1195:
- l_pos: true
  l_idx: 0
  r_pos: true
  r_idx: 0
  r_shift: 2
- l_pos: false
  l_idx: 1
  r_pos: true
  r_idx: 1
  r_shift: 4
- l_pos: false
  l_idx: 1
  r_pos: true
  r_idx: 2
  r_shift: 4
1197:
- l_pos: true
  l_idx: 0
  r_pos: true
  r_idx: 0
  r_shift: 3
- l_pos: true
  l_idx: 1
  r_pos: true
  r_idx: 1
  r_shift: 5
- l_pos: true
  l_idx: 1
  r_pos: true
  r_idx: 2
  r_shift: 2
1199:
- l_pos: true
  l_idx: 0
  r_pos: true
  r_idx: 0
  r_shift: 2
- l_pos: false
  l_idx: 1
  r_pos: true
  r_idx: 1
  r_shift: 4
- l_pos: false
  l_idx: 0
  r_pos: true
  r_idx: 2
  r_shift: 4
1201:
- l_pos: true
  l_idx: 0
  r_pos: true
  r_idx: 0
  r_shift: 2
- l_pos: false
  l_idx: 1
  r_pos: true
  r_idx: 1
  r_shift: 4
- l_pos: true
  l_idx: 0
  r_pos: true
  r_idx: 2
  r_shift: 4
1203:
- l_pos: true
  l_idx: 0
  r_pos: true
  r_idx: 0
  r_shift: 2
- l_pos: false
  l_idx: 1
  r_pos: true
  r_idx: 1
  r_shift: 4
- l_pos: true
  l_idx: 0
  r_pos: true
  r_idx: 2
  r_shift: 2
- l_pos: false
  l_idx: 0
  r_pos: true
  r_idx: 3
  r_shift: 2
1205:
- l_pos: true
  l_idx: 0
  r_pos: true
  r_idx: 0
  r_shift: 2
- l_pos: false
  l_idx: 1
  r_pos: true
  r_idx: 1
  r_shift: 4
- l_pos: true
  l_idx: 1
  r_pos: true
  r_idx: 2
  r_shift: 4
1207:
- l_pos: true
  l_idx: 0
  r_pos: true
  r_idx: 0
  r_shift: 3
- l_pos: true
  l_idx: 0
  r_pos: true
  r_idx: 1
  r_shift: 1
- l_pos: false
  l_idx: 1
  r_pos: true
  r_idx: 2
  r_shift: 6
1209:
- l_pos: false
  l_idx: 0
  r_pos: true
  r_idx: 0
  r_shift: 5
- l_pos: true
  l_idx: 1
  r_pos: true
  r_idx: 1
  r_shift: 2
- l_pos: false
  l_idx: 1
  r_pos: true
  r_idx: 2
  r_shift: 3
1211:
- l_pos: true
  l_idx: 0
  r_pos: true
  r_idx: 0
  r_shift: 2
- l_pos: false
  l_idx: 0
  r_pos: true
  r_idx: 1
  r_shift: 2
- l_pos: false
  l_idx: 1
  r_pos: true
  r_idx: 2
  r_shift: 6
1213:
- l_pos: true
  l_idx: 0
  r_pos: true
  r_idx: 0
  r_shift: 1
- l_pos: true
  l_idx: 1
  r_pos: true
  r_idx: 0
  r_shift: 4
- l_pos: false
  l_idx: 1
  r_pos: true
  r_idx: 2
  r_shift: 6
1215:
- l_pos: true
  l_idx: 0
  r_pos: true
  r_idx: 0
  r_shift: 2
- l_pos: false
  l_idx: 0
  r_pos: true
  r_idx: 1
  r_shift: 2
- l_pos: false
  l_idx: 0
  r_pos: true
  r_idx: 2
  r_shift: 6
".
Definition text_20 : string := "1217:
- l_pos: true
  l_idx: 0
  r_pos: true
  r_idx: 0
  r_shift: 2
- l_pos: false
  l_idx: 0
  r_pos: true
  r_idx: 1
  r_shift: 2
- l_pos: true
  l_idx: 0
  r_pos: true
  r_idx: 2
  r_shift: 6
1219:
- l_pos: true
  l_idx: 0
  r_pos: true
  r_idx: 0
  r_shift: 1
- l_pos: true
  l_idx: 1
  r_pos: true
  r_idx: 0
  r_shift: 4
- l_pos: true
  l_idx: 1
  r_pos: true
  r_idx: 2
  r_shift: 6
1221:
- l_pos: true
  l_idx: 0
  r_pos: true
  r_idx: 0
  r_shift: 2
- l_pos: false
  l_idx: 0
  r_pos: true
  r_idx: 1
  r_shift: 2
- l_pos: true
  l_idx: 1
  r_pos: true
  r_idx: 2
  r_shift: 6
1223:
- l_pos: true
  l_idx: 0
  r_pos: true
  r_idx: 0
  r_shift: 3
- l_pos: true
  l_idx: 1
  r_pos: true
  r_idx: 1
  r_shift: 4
- l_pos: false
  l_idx: 0
  r_pos: true
  r_idx: 2
  r_shift: 3
1225:
- l_pos: true
  l_idx: 0
  r_pos: true
  r_idx: 0
  r_shift: 3
- l_pos: true
  l_idx: 1
  r_pos: true
  r_idx: 1
  r_shift: 4
- l_pos: true
  l_idx: 0
  r_pos: true
  r_idx: 2
  r_shift: 3
1227:
- l_pos: true
  l_idx: 0
  r_pos: true
  r_idx: 0
  r_shift: 3
- l_pos: true
  l_idx: 1
  r_pos: true
  r_idx: 1
  r_shift: 4
- l_pos: true
  l_idx: 0
  r_pos: true
  r_idx: 2
  r_shift: 1
- l_pos: false
  l_idx: 0
  r_pos: true
  r_idx: 3
  r_shift: 2
1229:
- l_pos: true
  l_idx: 0
  r_pos: true
  r_idx: 0
  r_shift: 3
- l_pos: true
  l_idx: 1
  r_pos: true
  r_idx: 1
  r_shift: 4
- l_pos: true
  l_idx: 0
  r_pos: true
  r_idx: 2
  r_shift: 1
- l_pos: true
  l_idx: 0
  r_pos: true
  r_idx: 3
  r_shift: 2
1231:
- l_pos: false
  l_idx: 0
  r_pos: true
  r_idx: 0
  r_shift: 4
- l_pos: true
  l_idx: 1
  r_pos: true
  r_idx: 0
  r_shift: 2
- l_pos: true
  l_idx: 1
  r_pos: true
  r_idx: 2
  r_shift: 6
1233:
- l_pos: true
  l_idx: 0
  r_pos: true
  r_idx: 0
  r_shift: 3
- l_pos: true
  l_idx: 1
  r_pos: true
  r_idx: 1
  r_shift: 4
- l_pos: true
  l_idx: 1
  r_pos: true
  r_idx: 2
  r_shift: 3
1235:
- l_pos: true
  l_idx: 0
  r_pos: true
  r_idx: 0
  r_shift: 2
- l_pos: false
  l_idx: 1
  r_pos: true
  r_idx: 1
  r_shift: 5
- l_pos: false
  l_idx: 1
  r_pos: true
  r_idx: 2
  r_shift: 3
1237:
- l_pos: true
  l_idx: 0
  r_pos: true
  r_idx: 0
  r_shift: 2
- l_pos: false
  l_idx: 1
  r_pos: true
  r_idx: 1
  r_shift: 5
- l_pos: false
  l_idx: 0
  r_pos: true
  r_idx: 2
  r_shift: 1
- l_pos: true
  l_idx: 0
  r_pos: true
  r_idx: 3
  r_shift: 2
1239:
- l_pos: true
  l_idx: 0
  r_pos: true
  r_idx: 0
  r_shift: 2
- l_pos: false
  l_idx: 1
  r_pos: true
  r_idx: 1
  r_shift: 5
- l_pos: false
  l_idx: 0
  r_pos: true
  r_idx: 2
  r_shift: 3
1241:
- l_pos: true
  l_idx: 0
  r_pos: true
  r_idx: 0
  r_shift: 2
- l_pos: false
  l_idx: 1
  r_pos: true
  r_idx: 1
  r_shift: 5
- l_pos: true
  l_idx: 0
  r_pos: true
  r_idx: 2
  r_shift: 3
1243:
- l_pos: true
  l_idx: 0
  r_pos: true
  r_idx: 0
  r_shift: 2
- l_pos: false
  l_idx: 0
  r_pos: true
  r_idx: 1
  r_shift: 3
- l_pos: false
  l_idx: 1
  r_pos: true
  r_idx: 2
  r_shift: 5
1245:
- l_pos: true
  l_idx: 0
  r_pos: true
  r_idx: 0
  r_shift: 2
- l_pos: false
  l_idx: 1
  r_pos: true
  r_idx: 1
  r_shift: 5
- l_pos: true
  l_idx: 1
  r_pos: true
  r_idx: 2
  r_shift: 3
1247:
- l_pos: true
  l_idx: 0
  r_pos: true
  r_idx: 0
  r_shift: 2
- l_pos: false
  l_idx: 0
  r_pos: true
  r_idx: 1
  r_shift: 3
- l_pos: false
  l_idx: 0
  r_pos: true
  r_idx: 2
  r_shift: 5
1249:
- l_pos: true
  l_idx: 0
  r_pos: true
  r_idx: 0
  r_shift: 2
- l_pos: false
  l_idx: 0
  r_pos: true
  r_idx: 1
  r_shift: 3
- l_pos: true
  l_idx: 0
  r_pos: true
  r_idx: 2
  r_shift: 5
1251:
- l_pos: true
  l_idx: 0
  r_pos: true
  r_idx: 0
  r_shift: 2
- l_pos: false
  l_idx: 0
  r_pos: true
  r_idx: 1
  r_shift: 3
- l_pos: true
  l_idx: 0
  r_pos: true
  r_idx: 2
  r_shift: 3
- l_pos: false
  l_idx: 0
  r_pos: true
  r_idx: 3
  r_shift: 2
1253:
- l_pos: true
  l_idx: 0
  r_pos: true
  r_idx: 0
  r_shift: 2
- l_pos: false
  l_idx: 0
  r_pos: true
  r_idx: 1
  r_shift: 3
- l_pos: true
  l_idx: 1
  r_pos: true
  r_idx: 2
  r_shift: 5
1255:
- l_pos: true
  l_idx: 0
  r_pos: true
  r_idx: 0
  r_shift: 2
- l_pos: false
  l_idx: 1
  r_pos: true
  r_idx: 1
  r_shift: 6
- l_pos: false
  l_idx: 1
  r_pos: true
  r_idx: 2
  r_shift: 2
1257:
- l_pos: true
  l_idx: 0
  r_pos: true
  r_idx: 0
  r_shift: 2
- l_pos: false
  l_idx: 0
  r_pos: true
  r_idx: 1
  r_shift: 3
- l_pos: true
  l_idx: 0
  r_pos: true
  r_idx: 2
  r_shift: 2
- l_pos: true
  l_idx: 0
  r_pos: true
  r_idx: 3
  r_shift: 3
1259:
- l_pos: true
  l_idx: 0
  r_pos: true
  r_idx: 0
  r_shift: 2
- l_pos: false
  l_idx: 1
  r_pos: true
  r_idx: 1
  r_shift: 6
- l_pos: false
  l_idx: 0
  r_pos: true
  r_idx: 2
  r_shift: 2
1261:
- l_pos: true
  l_idx: 0
  r_pos: true
  r_idx: 0
  r_shift: 2
- l_pos: false
  l_idx: 1
  r_pos: true
  r_idx: 1
  r_shift: 6
- l_pos: true
  l_idx: 0
  r_pos: true
  r_idx: 2
  r_shift: 2
1263:
- l_pos: true
  l_idx: 0
  r_pos: true
  r_idx: 0
  r_shift: 2
- l_pos: false
  l_idx: 0
  r_pos: true
  r_idx: 1
  r_shift: 4
- l_pos: false
  l_idx: 0
  r_pos: true
  r_idx: 2
  r_shift: 4
1265:
- l_pos: true
  l_idx: 0
  r_pos: true
  r_idx: 0
  r_shift: 2
- l_pos: false
  l_idx: 0
  r_pos: true
  r_idx: 1
  r_shift: 4
- l_pos: true
  l_idx: 0
  r_pos: true
  r_idx: 2
  r_shift: 4
1267:
- l_pos: true
  l_idx: 0
  r_pos: true
  r_idx: 0
  r_shift: 2
- l_pos: false
  l_idx: 0
  r_pos: true
  r_idx: 1
  r_shift: 5
- l_pos: false
  l_idx: 1
  r_pos: true
  r_idx: 2
  r_shift: 3
1269:
- l_pos: true
  l_idx: 0
  r_pos: true
  r_idx: 0
  r_shift: 2
- l_pos: false
  l_idx: 1
  r_pos: true
  r_idx: 1
  r_shift: 7
- l_pos: false
  l_idx: 0
  r_pos: true
  r_idx: 2
  r_shift: 1
1271:
- l_pos: true
  l_idx: 0
  r_pos: true
  r_idx: 0
  r_shift: 2
- l_pos: false
  l_idx: 0
  r_pos: true
  r_idx: 1
  r_shift: 5
- l_pos: false
  l_idx: 0
  r_pos: true
  r_idx: 2
  r_shift: 3
1273:
- l_pos: true
  l_idx: 0
  r_pos: true
  r_idx: 0
  r_shift: 2
- l_pos: false
  l_idx: 0
  r_pos: true
  r_idx: 1
  r_shift: 5
- l_pos: true
  l_idx: 0
  r_pos: true
  r_idx: 2
  r_shift: 3
1275:
- l_pos: true
  l_idx: 0
  r_pos: true
  r_idx: 0
  r_shift: 2
- l_pos: false
  l_idx: 1
  r_pos: true
  r_idx: 1
  r_shift: 8
1277:
- l_pos: true
  l_idx: 0
  r_pos: true
  r_idx: 0
  r_shift: 2
- l_pos: false
  l_idx: 0
  r_pos: true
  r_idx: 1
  r_shift: 6
- l_pos: true
  l_idx: 0
  r_pos: true
  r_idx: 2
  r_shift: 2
1279:
- l_pos: true
  l_idx: 0
  r_pos: true
  r_idx: 0
  r_shift: 2
- l_pos: false
  l_idx: 0
  r_pos: true
  r_idx: 1
  r_shift: 8
".
Definition text_21 : string := "1281:
- l_pos: true
  l_idx: 0
  r_pos: true
  r_idx: 0
  r_shift: 2
- l_pos: true
  l_idx: 0
  r_pos: true
  r_idx: 1
  r_shift: 8
1283:
- l_pos: true
  l_idx: 0
  r_pos: true
  r_idx: 0
  r_shift: 2
- l_pos: true
  l_idx: 0
  r_pos: true
  r_idx: 1
  r_shift: 6
- l_pos: false
  l_idx: 0
  r_pos: true
  r_idx: 2
  r_shift: 2
1285:
- l_pos: true
  l_idx: 0
  r_pos: true
  r_idx: 0
  r_shift: 2
- l_pos: true
  l_idx: 1
  r_pos: true
  r_idx: 1
  r_shift: 8
1287:
- l_pos: true
  l_idx: 0
  r_pos: true
  r_idx: 0
  r_shift: 2
- l_pos: true
  l_idx: 0
  r_pos: true
  r_idx: 1
  r_shift: 5
- l_pos: false
  l_idx: 0
  r_pos: true
  r_idx: 2
  r_shift: 3
1289:
- l_pos: true
  l_idx: 0
  r_pos: true
  r_idx: 0
  r_shift: 2
- l_pos: true
  l_idx: 0
  r_pos: true
  r_idx: 1
  r_shift: 5
- l_pos: true
  l_idx: 0
  r_pos: true
  r_idx: 2
  r_shift: 3
1291:
- l_pos: true
  l_idx: 0
  r_pos: true
  r_idx: 0
  r_shift: 2
- l_pos: true
  l_idx: 1
  r_pos: true
  r_idx: 1
  r_shift: 7
- l_pos: true
  l_idx: 0
  r_pos: true
  r_idx: 2
  r_shift: 1
1293:
- l_pos: true
  l_idx: 0
  r_pos: true
  r_idx: 0
  r_shift: 2
- l_pos: true
  l_idx: 0
  r_pos: true
  r_idx: 1
  r_shift: 5
- l_pos: true
  l_idx: 1
  r_pos: true
  r_idx: 2
  r_shift: 3
1295:
- l_pos: true
  l_idx: 0
  r_pos: true
  r_idx: 0
  r_shift: 2
- l_pos: true
  l_idx: 0
  r_pos: true
  r_idx: 1
  r_shift: 4
- l_pos: false
  l_idx: 0
  r_pos: true
  r_idx: 2
  r_shift: 4
1297:
- l_pos: true
  l_idx: 0
  r_pos: true
  r_idx: 0
  r_shift: 2
- l_pos: true
  l_idx: 0
  r_pos: true
  r_idx: 1
  r_shift: 4
- l_pos: true
  l_idx: 0
  r_pos: true
  r_idx: 2
  r_shift: 4
1299:
- l_pos: true
  l_idx: 0
  r_pos: true
  r_idx: 0
  r_shift: 2
- l_pos: true
  l_idx: 1
  r_pos: true
  r_idx: 1
  r_shift: 6
- l_pos: false
  l_idx: 0
  r_pos: true
  r_idx: 2
  r_shift: 2
1301:
- l_pos: true
  l_idx: 0
  r_pos: true
  r_idx: 0
  r_shift: 2
- l_pos: true
  l_idx: 1
  r_pos: true
  r_idx: 1
  r_shift: 6
- l_pos: true
  l_idx: 0
  r_pos: true
  r_idx: 2
  r_shift: 2
1303:
- l_pos: true
  l_idx: 0
  r_pos: true
  r_idx: 0
  r_shift: 3
- l_pos: true
  l_idx: 1
  r_pos: true
  r_idx: 0
  r_shift: 5
- l_pos: false
  l_idx: 1
  r_pos: true
  r_idx: 2
  r_shift: 5
1305:
- l_pos: true
  l_idx: 0
  r_pos: true
  r_idx: 0
  r_shift: 2
- l_pos: true
  l_idx: 1
  r_pos: true
  r_idx: 1
  r_shift: 6
- l_pos: true
  l_idx: 1
  r_pos: true
  r_idx: 2
  r_shift: 2
1307:
- l_pos: true
  l_idx: 0
  r_pos: true
  r_idx: 0
  r_shift: 2
- l_pos: true
  l_idx: 0
  r_pos: true
  r_idx: 1
  r_shift: 3
- l_pos: false
  l_idx: 1
  r_pos: true
  r_idx: 2
  r_shift: 5
1309:
- l_pos: true
  l_idx: 0
  r_pos: true
  r_idx: 0
  r_shift: 2
- l_pos: true
  l_idx: 0
  r_pos: true
  r_idx: 1
  r_shift: 3
- l_pos: false
  l_idx: 0
  r_pos: true
  r_idx: 2
  r_shift: 3
- l_pos: true
  l_idx: 0
  r_pos: true
  r_idx: 3
  r_shift: 2
1311:
- l_pos: true
  l_idx: 0
  r_pos: true
  r_idx: 0
  r_shift: 2
- l_pos: true
  l_idx: 0
  r_pos: true
  r_idx: 1
  r_shift: 3
- l_pos: false
  l_idx: 0
  r_pos: true
  r_idx: 2
  r_shift: 5
1313:
- l_pos: true
  l_idx: 0
  r_pos: true
  r_idx: 0
  r_shift: 2
- l_pos: true
  l_idx: 0
  r_pos: true
  r_idx: 1
  r_shift: 3
- l_pos: true
  l_idx: 0
  r_pos: true
  r_idx: 2
  r_shift: 5
1315:
- l_pos: true
  l_idx: 0
  r_pos: true
  r_idx: 0
  r_shift: 2
- l_pos: true
  l_idx: 1
  r_pos: true
  r_idx: 1
  r_shift: 5
- l_pos: false
  l_idx: 1
  r_pos: true
  r_idx: 2
  r_shift: 3
1317:
- l_pos: true
  l_idx: 0
  r_pos: true
  r_idx: 0
  r_shift: 2
- l_pos: true
  l_idx: 0
  r_pos: true
  r_idx: 1
  r_shift: 3
- l_pos: true
  l_idx: 1
  r_pos: true
  r_idx: 2
  r_shift: 5
1319:
- l_pos: true
  l_idx: 0
  r_pos: true
  r_idx: 0
  r_shift: 2
- l_pos: true
  l_idx: 1
  r_pos: true
  r_idx: 1
  r_shift: 5
- l_pos: false
  l_idx: 0
  r_pos: true
  r_idx: 2
  r_shift: 3
1321:
- l_pos: true
  l_idx: 0
  r_pos: true
  r_idx: 0
  r_shift: 2
- l_pos: true
  l_idx: 1
  r_pos: true
  r_idx: 1
  r_shift: 5
- l_pos: true
  l_idx: 0
  r_pos: true
  r_idx: 2
  r_shift: 3
1323:
- l_pos: false
  l_idx: 0
  r_pos: true
  r_idx: 0
  r_shift: 6
- l_pos: true
  l_idx: 1
  r_pos: true
  r_idx: 1
  r_shift: 2
- l_pos: true
  l_idx: 1
  r_pos: true
  r_idx: 2
  r_shift: 2
1325:
- l_pos: true
  l_idx: 0
  r_pos: true
  r_idx: 0
  r_shift: 2
- l_pos: true
  l_idx: 1
  r_pos: true
  r_idx: 1
  r_shift: 5
- l_pos: true
  l_idx: 1
  r_pos: true
  r_idx: 2
  r_shift: 3
1327:
- l_pos: true
  l_idx: 0
  r_pos: true
  r_idx: 0
  r_shift: 4
- l_pos: true
  l_idx: 1
  r_pos: true
  r_idx: 0
  r_shift: 2
- l_pos: false
  l_idx: 1
  r_pos: true
  r_idx: 2
  r_shift: 6
1329:
- l_pos: true
  l_idx: 0
  r_pos: true
  r_idx: 0
  r_shift: 2
- l_pos: true
  l_idx: 0
  r_pos: true
  r_idx: 1
  r_shift: 2
- l_pos: false
  l_idx: 0
  r_pos: true
  r_idx: 2
  r_shift: 2
- l_pos: true
  l_idx: 0
  r_pos: true
  r_idx: 3
  r_shift: 4
1331:
- l_pos: true
  l_idx: 0
  r_pos: true
  r_idx: 0
  r_shift: 1
- l_pos: false
  l_idx: 1
  r_pos: true
  r_idx: 1
  r_shift: 3
- l_pos: false
  l_idx: 1
  r_pos: true
  r_idx: 2
  r_shift: 4
- l_pos: false
  l_idx: 0
  r_pos: true
  r_idx: 3
  r_shift: 2
1333:
- l_pos: true
  l_idx: 0
  r_pos: true
  r_idx: 0
  r_shift: 1
- l_pos: false
  l_idx: 1
  r_pos: true
  r_idx: 1
  r_shift: 3
- l_pos: false
  l_idx: 1
  r_pos: true
  r_idx: 2
  r_shift: 4
- l_pos: true
  l_idx: 0
  r_pos: true
  r_idx: 3
  r_shift: 2
1335:
- l_pos: true
  l_idx: 0
  r_pos: true
  r_idx: 0
  r_shift: 2
- l_pos: true
  l_idx: 0
  r_pos: true
  r_idx: 1
  r_shift: 2
- l_pos: false
  l_idx: 0
  r_pos: true
  r_idx: 2
  r_shift: 3
- l_pos: false
  l_idx: 0
  r_pos: true
  r_idx: 3
  r_shift: 3
1337:
- l_pos: false
  l_idx: 0
  r_pos: true
  r_idx: 0
  r_shift: 3
- l_pos: true
  l_idx: 1
  r_pos: true
  r_idx: 1
  r_shift: 1
- l_pos: false
  l_idx: 1
  r_pos: true
  r_idx: 2
  r_shift: 6
1339:
- l_pos: true
  l_idx: 0
  r_pos: true
  r_idx: 0
  r_shift: 2
- l_pos: true
  l_idx: 0
  r_pos: true
  r_idx: 1
  r_shift: 2
- l_pos: false
  l_idx: 1
  r_pos: true
  r_idx: 2
  r_shift: 6
1341:
- l_pos: true
  l_idx: 0
  r_pos: true
  r_idx: 0
  r_shift: 1
- l_pos: false
  l_idx: 1
  r_pos: true
  r_idx: 1
  r_shift: 3
- l_pos: false
  l_idx: 1
  r_pos: true
  r_idx: 2
  r_shift: 6
1343:
- l_pos: true
  l_idx: 0
  r_pos: true
  r_idx: 0
  r_shift: 2
- l_pos: true
  l_idx: 0
  r_pos: true
  r_idx: 1
  r_shift: 2
- l_pos: false
  l_idx: 0
  r_pos: true
  r_idx: 2
  r_shift: 6
".
Definition text_22 : string := "1345:
- l_pos: true
  l_idx: 0
  r_pos: true
  r_idx: 0
  r_shift: 2
- l_pos: true
  l_idx: 0
  r_pos: true
  r_idx: 1
  r_shift: 2
- l_pos: true
  l_idx: 0
  r_pos: true
  r_idx: 2
  r_shift: 6
1347:
- l_pos: true
  l_idx: 0
  r_pos: true
  r_idx: 0
  r_shift: 1
- l_pos: false
  l_idx: 1
  r_pos: true
  r_idx: 1
  r_shift: 3
- l_pos: true
  l_idx: 1
  r_pos: true
  r_idx: 2
  r_shift: 6
1349:
- l_pos: true
  l_idx: 0
  r_pos: true
  r_idx: 0
  r_shift: 2
- l_pos: true
  l_idx: 0
  r_pos: true
  r_idx: 1
  r_shift: 2
- l_pos: true
  l_idx: 1
  r_pos: true
  r_idx: 2
  r_shift: 6
1351:
- l_pos: false
  l_idx: 0
  r_pos: true
  r_idx: 0
  r_shift: 3
- l_pos: true
  l_idx: 1
  r_pos: true
  r_idx: 1
  r_shift: 1
- l_pos: true
  l_idx: 1
  r_pos: true
  r_idx: 2
  r_shift: 6
1353:
- l_pos: true
  l_idx: 0
  r_pos: true
  r_idx: 0
  r_shift: 5
- l_pos: true
  l_idx: 1
  r_pos: true
  r_idx: 1
  r_shift: 2
- l_pos: true
  l_idx: 1
  r_pos: true
  r_idx: 2
  r_shift: 3
1355:
- l_pos: true
  l_idx: 0
  r_pos: true
  r_idx: 0
  r_shift: 2
- l_pos: true
  l_idx: 1
  r_pos: true
  r_idx: 1
  r_shift: 4
- l_pos: false
  l_idx: 1
  r_pos: true
  r_idx: 2
  r_shift: 4
1357:
- l_pos: true
  l_idx: 0
  r_pos: true
  r_idx: 0
  r_shift: 2
- l_pos: true
  l_idx: 1
  r_pos: true
  r_idx: 1
  r_shift: 4
- l_pos: false
  l_idx: 0
  r_pos: true
  r_idx: 2
  r_shift: 2
- l_pos: true
  l_idx: 0
  r_pos: true
  r_idx: 3
  r_shift: 2
1359:
- l_pos: true
  l_idx: 0
  r_pos: true
  r_idx: 0
  r_shift: 2
- l_pos: true
  l_idx: 1
  r_pos: true
  r_idx: 1
  r_shift: 4
- l_pos: false
  l_idx: 0
  r_pos: true
  r_idx: 2
  r_shift: 4
1361:
- l_pos: true
  l_idx: 0
  r_pos: true
  r_idx: 0
  r_shift: 2
- l_pos: true
  l_idx: 1
  r_pos: true
  r_idx: 1
  r_shift: 4
- l_pos: true
  l_idx: 0
  r_pos: true
  r_idx: 2
  r_shift: 4
1363:
- l_pos: true
  l_idx: 0
  r_pos: true
  r_idx: 0
  r_shift: 2
- l_pos: true
  l_idx: 1
  r_pos: true
  r_idx: 1
  r_shift: 4
- l_pos: true
  l_idx: 0
  r_pos: true
  r_idx: 2
  r_shift: 2
- l_pos: false
  l_idx: 0
  r_pos: true
  r_idx: 3
  r_shift: 2
1365:
- l_pos: true
  l_idx: 0
  r_pos: true
  r_idx: 0
  r_shift: 2
- l_pos: true
  l_idx: 1
  r_pos: true
  r_idx: 1
  r_shift: 4
- l_pos: true
  l_idx: 1
  r_pos: true
  r_idx: 2
  r_shift: 4
1367:
- l_pos: true
  l_idx: 0
  r_pos: true
  r_idx: 0
  r_shift: 2
- l_pos: true
  l_idx: 1
  r_pos: true
  r_idx: 1
  r_shift: 4
- l_pos: true
  l_idx: 0
  r_pos: true
  r_idx: 2
  r_shift: 1
- l_pos: false
  l_idx: 0
  r_pos: true
  r_idx: 3
  r_shift: 3
1369:
- l_pos: true
  l_idx: 0
  r_pos: true
  r_idx: 0
  r_shift: 2
- l_pos: true
  l_idx: 1
  r_pos: true
  r_idx: 1
  r_shift: 4
- l_pos: true
  l_idx: 0
  r_pos: true
  r_idx: 2
  r_shift: 1
- l_pos: true
  l_idx: 0
  r_pos: true
  r_idx: 3
  r_shift: 3
1371:
- l_pos: true
  l_idx: 0
  r_pos: true
  r_idx: 0
  r_shift: 2
- l_pos: true
  l_idx: 1
  r_pos: true
  r_idx: 1
  r_shift: 4
- l_pos: true
  l_idx: 1
  r_pos: true
  r_idx: 2
  r_shift: 3
- l_pos: true
  l_idx: 0
  r_pos: true
  r_idx: 3
  r_shift: 1
1373:
- l_pos: true
  l_idx: 0
  r_pos: true
  r_idx: 0
  r_shift: 3
- l_pos: true
  l_idx: 1
  r_pos: true
  r_idx: 0
  r_shift: 1
- l_pos: false
  l_idx: 1
  r_pos: true
  r_idx: 2
  r_shift: 5
- l_pos: true
  l_idx: 0
  r_pos: true
  r_idx: 3
  r_shift: 2
1375:
- l_pos: true
  l_idx: 0
  r_pos: true
  r_idx: 0
  r_shift: 1
- l_pos: false
  l_idx: 0
  r_pos: true
  r_idx: 1
  r_shift: 2
- l_pos: false
  l_idx: 0
  r_pos: true
  r_idx: 2
  r_shift: 2
- l_pos: false
  l_idx: 0
  r_pos: true
  r_idx: 3
  r_shift: 5
1377:
- l_pos: true
  l_idx: 0
  r_pos: true
  r_idx: 0
  r_shift: 4
- l_pos: true
  l_idx: 1
  r_pos: true
  r_idx: 1
  r_shift: 2
- l_pos: true
  l_idx: 1
  r_pos: true
  r_idx: 2
  r_shift: 4
1379:
- l_pos: true
  l_idx: 0
  r_pos: true
  r_idx: 0
  r_shift: 2
- l_pos: true
  l_idx: 1
  r_pos: true
  r_idx: 1
  r_shift: 4
- l_pos: true
  l_idx: 1
  r_pos: true
  r_idx: 2
  r_shift: 2
- l_pos: false
  l_idx: 0
  r_pos: true
  r_idx: 3
  r_shift: 2
1381:
- l_pos: true
  l_idx: 0
  r_pos: true
  r_idx: 0
  r_shift: 2
- l_pos: true
  l_idx: 1
  r_pos: true
  r_idx: 1
  r_shift: 4
- l_pos: true
  l_idx: 1
  r_pos: true
  r_idx: 2
  r_shift: 2
- l_pos: true
  l_idx: 0
  r_pos: true
  r_idx: 3
  r_shift: 2
1383:
- l_pos: true
  l_idx: 0
  r_pos: true
  r_idx: 0
  r_shift: 1
- l_pos: false
  l_idx: 0
  r_pos: true
  r_idx: 1
  r_shift: 2
- l_pos: false
  l_idx: 1
  r_pos: true
  r_idx: 2
  r_shift: 4
- l_pos: false
  l_idx: 0
  r_pos: true
  r_idx: 3
  r_shift: 3
1385:
- l_pos: true
  l_idx: 0
  r_pos: true
  r_idx: 0
  r_shift: 1
- l_pos: false
  l_idx: 0
  r_pos: true
  r_idx: 1
  r_shift: 2
- l_pos: false
  l_idx: 1
  r_pos: true
  r_idx: 2
  r_shift: 4
- l_pos: true
  l_idx: 0
  r_pos: true
  r_idx: 3
  r_shift: 3
1387:
- l_pos: true
  l_idx: 0
  r_pos: true
  r_idx: 0
  r_shift: 2
- l_pos: true
  l_idx: 0
  r_pos: true
  r_idx: 1
  r_shift: 1
- l_pos: false
  l_idx: 1
  r_pos: true
  r_idx: 2
  r_shift: 5
- l_pos: false
  l_idx: 0
  r_pos: true
  r_idx: 3
  r_shift: 2
1389:
- l_pos: true
  l_idx: 0
  r_pos: true
  r_idx: 0
  r_shift: 2
- l_pos: true
  l_idx: 0
  r_pos: true
  r_idx: 1
  r_shift: 1
- l_pos: false
  l_idx: 1
  r_pos: true
  r_idx: 2
  r_shift: 5
- l_pos: true
  l_idx: 0
  r_pos: true
  r_idx: 3
  r_shift: 2
1391:
- l_pos: true
  l_idx: 0
  r_pos: true
  r_idx: 0
  r_shift: 1
- l_pos: false
  l_idx: 0
  r_pos: true
  r_idx: 1
  r_shift: 2
- l_pos: false
  l_idx: 0
  r_pos: true
  r_idx: 2
  r_shift: 3
- l_pos: false
  l_idx: 0
  r_pos: true
  r_idx: 3
  r_shift: 4
1393:
- l_pos: false
  l_idx: 0
  r_pos: true
  r_idx: 0
  r_shift: 4
- l_pos: true
  l_idx: 1
  r_pos: false
  r_idx: 0
  r_shift: 2
- l_pos: false
  l_idx: 1
  r_pos: true
  r_idx: 2
  r_shift: 7
1395:
- l_pos: true
  l_idx: 0
  r_pos: true
  r_idx: 0
  r_shift: 1
- l_pos: false
  l_idx: 1
  r_pos: true
  r_idx: 1
  r_shift: 4
- l_pos: false
  l_idx: 2
  r_pos: true
  r_idx: 2
  r_shift: 5
1397:
- l_pos: false
  l_idx: 0
  r_pos: true
  r_idx: 0
  r_shift: 7
- l_pos: true
  l_idx: 1
  r_pos: true
  r_idx: 1
  r_shift: 1
- l_pos: false
  l_idx: 1
  r_pos: true
  r_idx: 2
  r_shift: 2
1399:
- l_pos: true
  l_idx: 0
  r_pos: true
  r_idx: 0
  r_shift: 3
- l_pos: true
  l_idx: 1
  r_pos: true
  r_idx: 0
  r_shift: 1
- l_pos: false
  l_idx: 1
  r_pos: true
  r_idx: 2
  r_shift: 7
1401:
- l_pos: false
  l_idx: 0
  r_pos: true
  r_idx: 0
  r_shift: 3
- l_pos: true
  l_idx: 1
  r_pos: true
  r_idx: 0
  r_shift: 2
- l_pos: false
  l_idx: 1
  r_pos: true
  r_idx: 2
  r_shift: 7
1403:
- l_pos: true
  l_idx: 0
  r_pos: true
  r_idx: 0
  r_shift: 2
- l_pos: true
  l_idx: 0
  r_pos: true
  r_idx: 1
  r_shift: 1
- l_pos: false
  l_idx: 1
  r_pos: true
  r_idx: 2
  r_shift: 7
1405:
- l_pos: true
  l_idx: 0
  r_pos: true
  r_idx: 0
  r_shift: 1
- l_pos: false
  l_idx: 0
  r_pos: true
  r_idx: 1
  r_shift: 2
- l_pos: false
  l_idx: 1
  r_pos: true
  r_idx: 2
  r_shift: 7
1407:
- l_pos: true
  l_idx: 0
  r_pos: true
  r_idx: 0
  r_shift: 1
- l_pos: false
  l_idx: 0
  r_pos: true
  r_idx: 1
  r_shift: 2
- l_pos: false
  l_idx: 0
  r_pos: true
  r_idx: 2
  r_shift: 7
".
Definition text_23 : string := "1409:
- l_pos: true
  l_idx: 0
  r_pos: true
  r_idx: 0
  r_shift: 1
- l_pos: false
  l_idx: 0
  r_pos: true
  r_idx: 1
  r_shift: 2
- l_pos: true
  l_idx: 0
  r_pos: true
  r_idx: 2
  r_shift: 7
1411:
- l_pos: true
  l_idx: 0
  r_pos: true
  r_idx: 0
  r_shift: 1
- l_pos: false
  l_idx: 0
  r_pos: true
  r_idx: 1
  r_shift: 2
- l_pos: true
  l_idx: 1
  r_pos: true
  r_idx: 2
  r_shift: 7
1413:
- l_pos: true
  l_idx: 0
  r_pos: true
  r_idx: 0
  r_shift: 2
- l_pos: true
  l_idx: 0
  r_pos: true
  r_idx: 1
  r_shift: 1
- l_pos: true
  l_idx: 1
  r_pos: true
  r_idx: 2
  r_shift: 7
1415:
- l_pos: false
  l_idx: 0
  r_pos: true
  r_idx: 0
  r_shift: 3
- l_pos: true
  l_idx: 1
  r_pos: true
  r_idx: 0
  r_shift: 2
- l_pos: true
  l_idx: 1
  r_pos: true
  r_idx: 2
  r_shift: 7
1417:
- l_pos: true
  l_idx: 0
  r_pos: true
  r_idx: 0
  r_shift: 3
- l_pos: true
  l_idx: 1
  r_pos: true
  r_idx: 0
  r_shift: 1
- l_pos: true
  l_idx: 1
  r_pos: true
  r_idx: 2
  r_shift: 7
1419:
- l_pos: true
  l_idx: 0
  r_pos: true
  r_idx: 0
  r_shift: 7
- l_pos: true
  l_idx: 1
  r_pos: true
  r_idx: 1
  r_shift: 1
- l_pos: false
  l_idx: 1
  r_pos: true
  r_idx: 2
  r_shift: 2
1421:
- l_pos: true
  l_idx: 0
  r_pos: true
  r_idx: 0
  r_shift: 1
- l_pos: false
  l_idx: 0
  r_pos: true
  r_idx: 1
  r_shift: 2
- l_pos: true
  l_idx: 1
  r_pos: true
  r_idx: 2
  r_shift: 5
- l_pos: true
  l_idx: 0
  r_pos: true
  r_idx: 3
  r_shift: 2
1423:
- l_pos: false
  l_idx: 0
  r_pos: true
  r_idx: 0
  r_shift: 4
- l_pos: true
  l_idx: 1
  r_pos: false
  r_idx: 0
  r_shift: 2
- l_pos: true
  l_idx: 1
  r_pos: true
  r_idx: 2
  r_shift: 7
1425:
- l_pos: false
  l_idx: 0
  r_pos: true
  r_idx: 0
  r_shift: 4
- l_pos: true
  l_idx: 1
  r_pos: true
  r_idx: 1
  r_shift: 1
- l_pos: false
  l_idx: 1
  r_pos: true
  r_idx: 2
  r_shift: 5
1427:
- l_pos: true
  l_idx: 0
  r_pos: true
  r_idx: 0
  r_shift: 1
- l_pos: false
  l_idx: 1
  r_pos: true
  r_idx: 1
  r_shift: 4
- l_pos: false
  l_idx: 1
  r_pos: true
  r_idx: 2
  r_shift: 3
- l_pos: false
  l_idx: 0
  r_pos: true
  r_idx: 3
  r_shift: 2
1429:
- l_pos: true
  l_idx: 0
  r_pos: true
  r_idx: 0
  r_shift: 1
- l_pos: false
  l_idx: 1
  r_pos: true
  r_idx: 1
  r_shift: 4
- l_pos: false
  l_idx: 1
  r_pos: true
  r_idx: 2
  r_shift: 3
- l_pos: true
  l_idx: 0
  r_pos: true
  r_idx: 3
  r_shift: 2
1431:
- l_pos: true
  l_idx: 0
  r_pos: true
  r_idx: 0
  r_shift: 3
- l_pos: true
  l_idx: 1
  r_pos: true
  r_idx: 1
  r_shift: 2
- l_pos: false
  l_idx: 1
  r_pos: true
  r_idx: 2
  r_shift: 5
1433:
- l_pos: true
  l_idx: 0
  r_pos: true
  r_idx: 0
  r_shift: 1
- l_pos: false
  l_idx: 1
  r_pos: true
  r_idx: 1
  r_shift: 4
- l_pos: false
  l_idx: 0
  r_pos: true
  r_idx: 2
  r_shift: 2
- l_pos: true
  l_idx: 0
  r_pos: true
  r_idx: 3
  r_shift: 3
1435:
- l_pos: true
  l_idx: 0
  r_pos: true
  r_idx: 0
  r_shift: 2
- l_pos: true
  l_idx: 1
  r_pos: true
  r_idx: 1
  r_shift: 3
- l_pos: false
  l_idx: 1
  r_pos: true
  r_idx: 2
  r_shift: 5
1437:
- l_pos: true
  l_idx: 0
  r_pos: true
  r_idx: 0
  r_shift: 1
- l_pos: false
  l_idx: 1
  r_pos: true
  r_idx: 1
  r_shift: 4
- l_pos: false
  l_idx: 1
  r_pos: true
  r_idx: 2
  r_shift: 5
1439:
- l_pos: true
  l_idx: 0
  r_pos: true
  r_idx: 0
  r_shift: 1
- l_pos: false
  l_idx: 1
  r_pos: true
  r_idx: 1
  r_shift: 4
- l_pos: false
  l_idx: 0
  r_pos: true
  r_idx: 2
  r_shift: 5
1441:
- l_pos: true
  l_idx: 0
  r_pos: true
  r_idx: 0
  r_shift: 1
- l_pos: false
  l_idx: 1
  r_pos: true
  r_idx: 1
  r_shift: 4
- l_pos: true
  l_idx: 0
  r_pos: true
  r_idx: 2
  r_shift: 5
1443:
- l_pos: true
  l_idx: 0
  r_pos: true
  r_idx: 0
  r_shift: 1
- l_pos: false
  l_idx: 1
  r_pos: true
  r_idx: 1
  r_shift: 4
- l_pos: true
  l_idx: 1
  r_pos: true
  r_idx: 2
  r_shift: 5
1445:
- l_pos: true
  l_idx: 0
  r_pos: true
  r_idx: 0
  r_shift: 2
- l_pos: true
  l_idx: 1
  r_pos: true
  r_idx: 1
  r_shift: 3
- l_pos: true
  l_idx: 1
  r_pos: true
  r_idx: 2
  r_shift: 5
1447:
- l_pos: true
  l_idx: 0
  r_pos: true
  r_idx: 0
  r_shift: 1
- l_pos: false
  l_idx: 1
  r_pos: true
  r_idx: 1
  r_shift: 4
- l_pos: true
  l_idx: 0
  r_pos: true
  r_idx: 2
  r_shift: 2
- l_pos: false
  l_idx: 0
  r_pos: true
  r_idx: 3
  r_shift: 3
1449:
- l_pos: true
  l_idx: 0
  r_pos: true
  r_idx: 0
  r_shift: 3
- l_pos: true
  l_idx: 1
  r_pos: true
  r_idx: 1
  r_shift: 2
- l_pos: true
  l_idx: 1
  r_pos: true
  r_idx: 2
  r_shift: 5
1451:
- l_pos: true
  l_idx: 0
  r_pos: true
  r_idx: 0
  r_shift: 1
- l_pos: false
  l_idx: 1
  r_pos: true
  r_idx: 1
  r_shift: 4
- l_pos: true
  l_idx: 1
  r_pos: true
  r_idx: 2
  r_shift: 3
- l_pos: false
  l_idx: 0
  r_pos: true
  r_idx: 3
  r_shift: 2
1453:
- l_pos: true
  l_idx: 0
  r_pos: true
  r_idx: 0
  r_shift: 1
- l_pos: false
  l_idx: 1
  r_pos: true
  r_idx: 1
  r_shift: 4
- l_pos: true
  l_idx: 1
  r_pos: true
  r_idx: 2
  r_shift: 3
- l_pos: true
  l_idx: 0
  r_pos: true
  r_idx: 3
  r_shift: 2
1455:
- l_pos: false
  l_idx: 0
  r_pos: true
  r_idx: 0
  r_shift: 4
- l_pos: true
  l_idx: 1
  r_pos: true
  r_idx: 1
  r_shift: 1
- l_pos: true
  l_idx: 1
  r_pos: true
  r_idx: 2
  r_shift: 5
1457:
- l_pos: false
  l_idx: 0
  r_pos: true
  r_idx: 0
  r_shift: 4
- l_pos: true
  l_idx: 1
  r_pos: true
  r_idx: 0
  r_shift: 3
- l_pos: false
  l_idx: 1
  r_pos: true
  r_idx: 2
  r_shift: 6
1459:
- l_pos: true
  l_idx: 0
  r_pos: true
  r_idx: 0
  r_shift: 1
- l_pos: false
  l_idx: 0
  r_pos: true
  r_idx: 1
  r_shift: 3
- l_pos: false
  l_idx: 1
  r_pos: true
  r_idx: 2
  r_shift: 4
- l_pos: false
  l_idx: 0
  r_pos: true
  r_idx: 3
  r_shift: 2
1461:
- l_pos: true
  l_idx: 0
  r_pos: true
  r_idx: 0
  r_shift: 1
- l_pos: false
  l_idx: 0
  r_pos: true
  r_idx: 1
  r_shift: 3
- l_pos: false
  l_idx: 1
  r_pos: true
  r_idx: 2
  r_shift: 4
- l_pos: true
  l_idx: 0
  r_pos: true
  r_idx: 3
  r_shift: 2
1463:
- l_pos: true
  l_idx: 0
  r_pos: true
  r_idx: 0
  r_shift: 3
- l_pos: false
  l_idx: 1
  r_pos: true
  r_idx: 0
  r_shift: 5
- l_pos: false
  l_idx: 1
  r_pos: true
  r_idx: 2
  r_shift: 6
1465:
- l_pos: false
  l_idx: 0
  r_pos: true
  r_idx: 0
  r_shift: 3
- l_pos: true
  l_idx: 1
  r_pos: true
  r_idx: 0
  r_shift: 4
- l_pos: false
  l_idx: 1
  r_pos: true
  r_idx: 2
  r_shift: 6
1467:
- l_pos: true
  l_idx: 0
  r_pos: true
  r_idx: 0
  r_shift: 1
- l_pos: false
  l_idx: 0
  r_pos: true
  r_idx: 1
  r_shift: 3
- l_pos: false
  l_idx: 0
  r_pos: true
  r_idx: 2
  r_shift: 4
- l_pos: false
  l_idx: 0
  r_pos: true
  r_idx: 3
  r_shift: 2
1469:
- l_pos: true
  l_idx: 0
  r_pos: true
  r_idx: 0
  r_shift: 1
- l_pos: false
  l_idx: 0
  r_pos: true
  r_idx: 1
  r_shift: 3
- l_pos: false
  l_idx: 1
  r_pos: true
  r_idx: 2
  r_shift: 6
1471:
- l_pos: true
  l_idx: 0
  r_pos: true
  r_idx: 0
  r_shift: 1
- l_pos: false
  l_idx: 0
  r_pos: true
  r_idx: 1
  r_shift: 3
- l_pos: false
  l_idx: 0
  r_pos: true
  r_idx: 2
  r_shift: 6
".
Definition text_24 : string := "1473:
- l_pos: true
  l_idx: 0
  r_pos: true
  r_idx: 0
  r_shift: 1
- l_pos: false
  l_idx: 0
  r_pos: true
  r_idx: 1
  r_shift: 3
- l_pos: true
  l_idx: 0
  r_pos: true
  r_idx: 2
  r_shift: 6
1475:
- l_pos: true
  l_idx: 0
  r_pos: true
  r_idx: 0
  r_shift: 1
- l_pos: false
  l_idx: 0
  r_pos: true
  r_idx: 1
  r_shift: 3
- l_pos: true
  l_idx: 1
  r_pos: true
  r_idx: 2
  r_shift: 6
1477:
- l_pos: true
  l_idx: 0
  r_pos: true
  r_idx: 0
  r_shift: 1
- l_pos: false
  l_idx: 0
  r_pos: true
  r_idx: 1
  r_shift: 3
- l_pos: true
  l_idx: 0
  r_pos: true
  r_idx: 2
  r_shift: 4
- l_pos: true
  l_idx: 0
  r_pos: true
  r_idx: 3
  r_shift: 2
1479:
- l_pos: false
  l_idx: 0
  r_pos: true
  r_idx: 0
  r_shift: 3
- l_pos: true
  l_idx: 1
  r_pos: true
  r_idx: 0
  r_shift: 4
- l_pos: true
  l_idx: 1
  r_pos: true
  r_idx: 2
  r_shift: 6
1481:
- l_pos: true
  l_idx: 0
  r_pos: true
  r_idx: 0
  r_shift: 3
- l_pos: false
  l_idx: 1
  r_pos: true
  r_idx: 0
  r_shift: 5
- l_pos: true
  l_idx: 1
  r_pos: true
  r_idx: 2
  r_shift: 6
1483:
- l_pos: true
  l_idx: 0
  r_pos: true
  r_idx: 0
  r_shift: 1
- l_pos: false
  l_idx: 1
  r_pos: true
  r_idx: 1
  r_shift: 5
- l_pos: false
  l_idx: 0
  r_pos: true
  r_idx: 2
  r_shift: 2
- l_pos: false
  l_idx: 0
  r_pos: true
  r_idx: 3
  r_shift: 2
1485:
- l_pos: true
  l_idx: 0
  r_pos: true
  r_idx: 0
  r_shift: 1
- l_pos: false
  l_idx: 1
  r_pos: true
  r_idx: 1
  r_shift: 5
- l_pos: false
  l_idx: 1
  r_pos: true
  r_idx: 2
  r_shift: 4
1487:
- l_pos: true
  l_idx: 0
  r_pos: true
  r_idx: 0
  r_shift: 1
- l_pos: false
  l_idx: 1
  r_pos: true
  r_idx: 1
  r_shift: 5
- l_pos: false
  l_idx: 0
  r_pos: true
  r_idx: 2
  r_shift: 4
1489:
- l_pos: true
  l_idx: 0
  r_pos: true
  r_idx: 0
  r_shift: 1
- l_pos: false
  l_idx: 1
  r_pos: true
  r_idx: 1
  r_shift: 5
- l_pos: true
  l_idx: 0
  r_pos: true
  r_idx: 2
  r_shift: 4
1491:
- l_pos: true
  l_idx: 0
  r_pos: true
  r_idx: 0
  r_shift: 1
- l_pos: false
  l_idx: 1
  r_pos: true
  r_idx: 1
  r_shift: 5
- l_pos: true
  l_idx: 1
  r_pos: true
  r_idx: 2
  r_shift: 4
1493:
- l_pos: true
  l_idx: 0
  r_pos: true
  r_idx: 0
  r_shift: 1
- l_pos: false
  l_idx: 1
  r_pos: true
  r_idx: 1
  r_shift: 5
- l_pos: true
  l_idx: 0
  r_pos: true
  r_idx: 2
  r_shift: 2
- l_pos: true
  l_idx: 0
  r_pos: true
  r_idx: 3
  r_shift: 2
1495:
- l_pos: true
  l_idx: 0
  r_pos: true
  r_idx: 0
  r_shift: 6
- l_pos: true
  l_idx: 1
  r_pos: true
  r_idx: 1
  r_shift: 1
- l_pos: false
  l_idx: 1
  r_pos: true
  r_idx: 2
  r_shift: 3
1497:
- l_pos: true
  l_idx: 0
  r_pos: true
  r_idx: 0
  r_shift: 1
- l_pos: false
  l_idx: 0
  r_pos: true
  r_idx: 1
  r_shift: 4
- l_pos: false
  l_idx: 0
  r_pos: true
  r_idx: 2
  r_shift: 2
- l_pos: true
  l_idx: 0
  r_pos: true
  r_idx: 3
  r_shift: 3
1499:
- l_pos: true
  l_idx: 0
  r_pos: true
  r_idx: 0
  r_shift: 1
- l_pos: false
  l_idx: 0
  r_pos: true
  r_idx: 1
  r_shift: 4
- l_pos: false
  l_idx: 0
  r_pos: true
  r_idx: 2
  r_shift: 3
- l_pos: false
  l_idx: 0
  r_pos: true
  r_idx: 3
  r_shift: 2
1501:
- l_pos: true
  l_idx: 0
  r_pos: true
  r_idx: 0
  r_shift: 1
- l_pos: false
  l_idx: 0
  r_pos: true
  r_idx: 1
  r_shift: 4
- l_pos: false
  l_idx: 1
  r_pos: true
  r_idx: 2
  r_shift: 5
1503:
- l_pos: true
  l_idx: 0
  r_pos: true
  r_idx: 0
  r_shift: 1
- l_pos: false
  l_idx: 0
  r_pos: true
  r_idx: 1
  r_shift: 4
- l_pos: false
  l_idx: 0
  r_pos: true
  r_idx: 2
  r_shift: 5
1505:
- l_pos: true
  l_idx: 0
  r_pos: true
  r_idx: 0
  r_shift: 1
- l_pos: false
  l_idx: 0
  r_pos: true
  r_idx: 1
  r_shift: 4
- l_pos: true
  l_idx: 0
  r_pos: true
  r_idx: 2
  r_shift: 5
1507:
- l_pos: true
  l_idx: 0
  r_pos: true
  r_idx: 0
  r_shift: 1
- l_pos: false
  l_idx: 0
  r_pos: true
  r_idx: 1
  r_shift: 4
- l_pos: true
  l_idx: 1
  r_pos: true
  r_idx: 2
  r_shift: 5
1509:
- l_pos: true
  l_idx: 0
  r_pos: true
  r_idx: 0
  r_shift: 1
- l_pos: false
  l_idx: 1
  r_pos: true
  r_idx: 1
  r_shift: 6
- l_pos: false
  l_idx: 1
  r_pos: true
  r_idx: 2
  r_shift: 3
1511:
- l_pos: true
  l_idx: 0
  r_pos: true
  r_idx: 0
  r_shift: 1
- l_pos: false
  l_idx: 1
  r_pos: true
  r_idx: 1
  r_shift: 6
- l_pos: false
  l_idx: 0
  r_pos: true
  r_idx: 2
  r_shift: 3
1513:
- l_pos: true
  l_idx: 0
  r_pos: true
  r_idx: 0
  r_shift: 1
- l_pos: false
  l_idx: 1
  r_pos: true
  r_idx: 1
  r_shift: 6
- l_pos: true
  l_idx: 0
  r_pos: true
  r_idx: 2
  r_shift: 3
1515:
- l_pos: true
  l_idx: 0
  r_pos: true
  r_idx: 0
  r_shift: 1
- l_pos: false
  l_idx: 1
  r_pos: true
  r_idx: 1
  r_shift: 6
- l_pos: true
  l_idx: 1
  r_pos: true
  r_idx: 2
  r_shift: 3
1517:
- l_pos: true
  l_idx: 0
  r_pos: true
  r_idx: 0
  r_shift: 1
- l_pos: false
  l_idx: 0
  r_pos: true
  r_idx: 1
  r_shift: 5
- l_pos: false
  l_idx: 1
  r_pos: true
  r_idx: 2
  r_shift: 4
1519:
- l_pos: true
  l_idx: 0
  r_pos: true
  r_idx: 0
  r_shift: 1
- l_pos: false
  l_idx: 0
  r_pos: true
  r_idx: 1
  r_shift: 5
- l_pos: false
  l_idx: 0
  r_pos: true
  r_idx: 2
  r_shift: 4
1521:
- l_pos: true
  l_idx: 0
  r_pos: true
  r_idx: 0
  r_shift: 1
- l_pos: false
  l_idx: 0
  r_pos: true
  r_idx: 1
  r_shift: 5
- l_pos: true
  l_idx: 0
  r_pos: true
  r_idx: 2
  r_shift: 4
1523:
- l_pos: true
  l_idx: 0
  r_pos: true
  r_idx: 0
  r_shift: 1
- l_pos: false
  l_idx: 1
  r_pos: true
  r_idx: 1
  r_shift: 7
- l_pos: false
  l_idx: 0
  r_pos: true
  r_idx: 2
  r_shift: 2
1525:
- l_pos: true
  l_idx: 0
  r_pos: true
  r_idx: 0
  r_shift: 1
- l_pos: false
  l_idx: 1
  r_pos: true
  r_idx: 1
  r_shift: 7
- l_pos: true
  l_idx: 0
  r_pos: true
  r_idx: 2
  r_shift: 2
1527:
- l_pos: true
  l_idx: 0
  r_pos: true
  r_idx: 0
  r_shift: 1
- l_pos: false
  l_idx: 0
  r_pos: true
  r_idx: 1
  r_shift: 6
- l_pos: false
  l_idx: 0
  r_pos: true
  r_idx: 2
  r_shift: 3
1529:
- l_pos: true
  l_idx: 0
  r_pos: true
  r_idx: 0
  r_shift: 1
- l_pos: false
  l_idx: 0
  r_pos: true
  r_idx: 1
  r_shift: 6
- l_pos: true
  l_idx: 0
  r_pos: true
  r_idx: 2
  r_shift: 3
1531:
- l_pos: true
  l_idx: 0
  r_pos: true
  r_idx: 0
  r_shift: 1
- l_pos: false
  l_idx: 0
  r_pos: true
  r_idx: 1
  r_shift: 7
- l_pos: false
  l_idx: 0
  r_pos: true
  r_idx: 2
  r_shift: 2
1533:
- l_pos: true
  l_idx: 0
  r_pos: true
  r_idx: 0
  r_shift: 1
- l_pos: false
  l_idx: 1
  r_pos: true
  r_idx: 1
  r_shift: 9
1535:
- l_pos: true
  l_idx: 0
  r_pos: true
  r_idx: 0
  r_shift: 1
- l_pos: false
  l_idx: 0
  r_pos: true
  r_idx: 1
  r_shift: 9
".
Definition text_25 : string := "1537:
- l_pos: true
  l_idx: 0
  r_pos: true
  r_idx: 0
  r_shift: 1
- l_pos: true
  l_idx: 0
  r_pos: true
  r_idx: 1
  r_shift: 9
1539:
- l_pos: true
  l_idx: 0
  r_pos: true
  r_idx: 0
  r_shift: 1
- l_pos: true
  l_idx: 1
  r_pos: true
  r_idx: 1
  r_shift: 9
1541:
- l_pos: true
  l_idx: 0
  r_pos: true
  r_idx: 0
  r_shift: 1
- l_pos: true
  l_idx: 0
  r_pos: true
  r_idx: 1
  r_shift: 7
- l_pos: true
  l_idx: 0
  r_pos: true
  r_idx: 2
  r_shift: 2
1543:
- l_pos: true
  l_idx: 0
  r_pos: true
  r_idx: 0
  r_shift: 1
- l_pos: true
  l_idx: 0
  r_pos: true
  r_idx: 1
  r_shift: 6
- l_pos: false
  l_idx: 0
  r_pos: true
  r_idx: 2
  r_shift: 3
1545:
- l_pos: true
  l_idx: 0
  r_pos: true
  r_idx: 0
  r_shift: 1
- l_pos: true
  l_idx: 0
  r_pos: true
  r_idx: 1
  r_shift: 6
- l_pos: true
  l_idx: 0
  r_pos: true
  r_idx: 2
  r_shift: 3
1547:
- l_pos: true
  l_idx: 0
  r_pos: true
  r_idx: 0
  r_shift: 1
- l_pos: true
  l_idx: 1
  r_pos: true
  r_idx: 1
  r_shift: 7
- l_pos: false
  l_idx: 0
  r_pos: true
  r_idx: 2
  r_shift: 2
1549:
- l_pos: true
  l_idx: 0
  r_pos: true
  r_idx: 0
  r_shift: 1
- l_pos: true
  l_idx: 1
  r_pos: true
  r_idx: 1
  r_shift: 7
- l_pos: true
  l_idx: 0
  r_pos: true
  r_idx: 2
  r_shift: 2
1551:
- l_pos: true
  l_idx: 0
  r_pos: true
  r_idx: 0
  r_shift: 1
- l_pos: true
  l_idx: 0
  r_pos: true
  r_idx: 1
  r_shift: 5
- l_pos: false
  l_idx: 0
  r_pos: true
  r_idx: 2
  r_shift: 4
1553:
- l_pos: true
  l_idx: 0
  r_pos: true
  r_idx: 0
  r_shift: 1
- l_pos: true
  l_idx: 0
  r_pos: true
  r_idx: 1
  r_shift: 5
- l_pos: true
  l_idx: 0
  r_pos: true
  r_idx: 2
  r_shift: 4
1555:
- l_pos: true
  l_idx: 0
  r_pos: true
  r_idx: 0
  r_shift: 1
- l_pos: true
  l_idx: 0
  r_pos: true
  r_idx: 1
  r_shift: 5
- l_pos: true
  l_idx: 1
  r_pos: true
  r_idx: 2
  r_shift: 4
1557:
- l_pos: true
  l_idx: 0
  r_pos: true
  r_idx: 0
  r_shift: 1
- l_pos: true
  l_idx: 1
  r_pos: true
  r_idx: 1
  r_shift: 6
- l_pos: false
  l_idx: 1
  r_pos: true
  r_idx: 2
  r_shift: 3
1559:
- l_pos: true
  l_idx: 0
  r_pos: true
  r_idx: 0
  r_shift: 1
- l_pos: true
  l_idx: 1
  r_pos: true
  r_idx: 1
  r_shift: 6
- l_pos: false
  l_idx: 0
  r_pos: true
  r_idx: 2
  r_shift: 3
1561:
- l_pos: true
  l_idx: 0
  r_pos: true
  r_idx: 0
  r_shift: 1
- l_pos: true
  l_idx: 1
  r_pos: true
  r_idx: 1
  r_shift: 6
- l_pos: true
  l_idx: 0
  r_pos: true
  r_idx: 2
  r_shift: 3
1563:
- l_pos: true
  l_idx: 0
  r_pos: true
  r_idx: 0
  r_shift: 1
- l_pos: true
  l_idx: 1
  r_pos: true
  r_idx: 1
  r_shift: 6
- l_pos: true
  l_idx: 1
  r_pos: true
  r_idx: 2
  r_shift: 3
1565:
- l_pos: true
  l_idx: 0
  r_pos: true
  r_idx: 0
  r_shift: 1
- l_pos: true
  l_idx: 0
  r_pos: true
  r_idx: 1
  r_shift: 4
- l_pos: false
  l_idx: 1
  r_pos: true
  r_idx: 2
  r_shift: 5
1567:
- l_pos: true
  l_idx: 0
  r_pos: true
  r_idx: 0
  r_shift: 1
- l_pos: true
  l_idx: 0
  r_pos: true
  r_idx: 1
  r_shift: 4
- l_pos: false
  l_idx: 0
  r_pos: true
  r_idx: 2
  r_shift: 5
1569:
- l_pos: true
  l_idx: 0
  r_pos: true
  r_idx: 0
  r_shift: 1
- l_pos: true
  l_idx: 0
  r_pos: true
  r_idx: 1
  r_shift: 4
- l_pos: true
  l_idx: 0
  r_pos: true
  r_idx: 2
  r_shift: 5
1571:
- l_pos: true
  l_idx: 0
  r_pos: true
  r_idx: 0
  r_shift: 1
- l_pos: true
  l_idx: 0
  r_pos: true
  r_idx: 1
  r_shift: 4
- l_pos: true
  l_idx: 1
  r_pos: true
  r_idx: 2
  r_shift: 5
1573:
- l_pos: true
  l_idx: 0
  r_pos: true
  r_idx: 0
  r_shift: 1
- l_pos: true
  l_idx: 0
  r_pos: true
  r_idx: 1
  r_shift: 4
- l_pos: true
  l_idx: 0
  r_pos: true
  r_idx: 2
  r_shift: 3
- l_pos: true
  l_idx: 0
  r_pos: true
  r_idx: 3
  r_shift: 2
1575:
- l_pos: false
  l_idx: 0
  r_pos: true
  r_idx: 0
  r_shift: 3
- l_pos: false
  l_idx: 1
  r_pos: true
  r_idx: 1
  r_shift: 3
- l_pos: true
  l_idx: 1
  r_pos: true
  r_idx: 2
  r_shift: 5
1577:
- l_pos: true
  l_idx: 0
  r_pos: true
  r_idx: 0
  r_shift: 1
- l_pos: true
  l_idx: 0
  r_pos: true
  r_idx: 1
  r_shift: 4
- l_pos: true
  l_idx: 0
  r_pos: true
  r_idx: 2
  r_shift: 2
- l_pos: true
  l_idx: 0
  r_pos: true
  r_idx: 3
  r_shift: 3
1579:
- l_pos: true
  l_idx: 0
  r_pos: true
  r_idx: 0
  r_shift: 1
- l_pos: true
  l_idx: 1
  r_pos: true
  r_idx: 1
  r_shift: 5
- l_pos: false
  l_idx: 0
  r_pos: true
  r_idx: 2
  r_shift: 2
- l_pos: false
  l_idx: 0
  r_pos: true
  r_idx: 3
  r_shift: 2
1581:
- l_pos: true
  l_idx: 0
  r_pos: true
  r_idx: 0
  r_shift: 1
- l_pos: true
  l_idx: 1
  r_pos: true
  r_idx: 1
  r_shift: 5
- l_pos: false
  l_idx: 1
  r_pos: true
  r_idx: 2
  r_shift: 4
1583:
- l_pos: true
  l_idx: 0
  r_pos: true
  r_idx: 0
  r_shift: 1
- l_pos: true
  l_idx: 1
  r_pos: true
  r_idx: 1
  r_shift: 5
- l_pos: false
  l_idx: 0
  r_pos: true
  r_idx: 2
  r_shift: 4
1585:
- l_pos: true
  l_idx: 0
  r_pos: true
  r_idx: 0
  r_shift: 1
- l_pos: true
  l_idx: 1
  r_pos: true
  r_idx: 1
  r_shift: 5
- l_pos: true
  l_idx: 0
  r_pos: true
  r_idx: 2
  r_shift: 4
1587:
- l_pos: true
  l_idx: 0
  r_pos: true
  r_idx: 0
  r_shift: 1
- l_pos: true
  l_idx: 1
  r_pos: true
  r_idx: 1
  r_shift: 5
- l_pos: true
  l_idx: 1
  r_pos: true
  r_idx: 2
  r_shift: 4
1589:
- l_pos: true
  l_idx: 0
  r_pos: true
  r_idx: 0
  r_shift: 1
- l_pos: true
  l_idx: 1
  r_pos: true
  r_idx: 1
  r_shift: 5
- l_pos: true
  l_idx: 0
  r_pos: true
  r_idx: 2
  r_shift: 2
- l_pos: true
  l_idx: 0
  r_pos: true
  r_idx: 3
  r_shift: 2
1591:
- l_pos: true
  l_idx: 0
  r_pos: true
  r_idx: 0
  r_shift: 3
- l_pos: true
  l_idx: 1
  r_pos: true
  r_idx: 0
  r_shift: 4
- l_pos: false
  l_idx: 1
  r_pos: true
  r_idx: 2
  r_shift: 6
1593:
- l_pos: false
  l_idx: 0
  r_pos: true
  r_idx: 0
  r_shift: 3
- l_pos: false
  l_idx: 1
  r_pos: true
  r_idx: 0
  r_shift: 5
- l_pos: false
  l_idx: 1
  r_pos: true
  r_idx: 2
  r_shift: 6
1595:
- l_pos: true
  l_idx: 0
  r_pos: true
  r_idx: 0
  r_shift: 2
- l_pos: true
  l_idx: 1
  r_pos: true
  r_idx: 1
  r_shift: 2
- l_pos: false
  l_idx: 1
  r_pos: true
  r_idx: 2
  r_shift: 6
1597:
- l_pos: true
  l_idx: 0
  r_pos: true
  r_idx: 0
  r_shift: 1
- l_pos: true
  l_idx: 0
  r_pos: true
  r_idx: 1
  r_shift: 3
- l_pos: false
  l_idx: 1
  r_pos: true
  r_idx: 2
  r_shift: 6
1599:
- l_pos: true
  l_idx: 0
  r_pos: true
  r_idx: 0
  r_shift: 1
- l_pos: true
  l_idx: 0
  r_pos: true
  r_idx: 1
  r_shift: 3
- l_pos: false
  l_idx: 0
  r_pos: true
  r_idx: 2
  r_shift: 6
".
Definition text_26 : string := "1601:
- l_pos: true
  l_idx: 0
  r_pos: true
  r_idx: 0
  r_shift: 1
- l_pos: true
  l_idx: 0
  r_pos: true
  r_idx: 1
  r_shift: 3
- l_pos: true
  l_idx: 0
  r_pos: true
  r_idx: 2
  r_shift: 6
1603:
- l_pos: true
  l_idx: 0
  r_pos: true
  r_idx: 0
  r_shift: 1
- l_pos: true
  l_idx: 0
  r_pos: true
  r_idx: 1
  r_shift: 3
- l_pos: true
  l_idx: 1
  r_pos: true
  r_idx: 2
  r_shift: 6
1605:
- l_pos: true
  l_idx: 0
  r_pos: true
  r_idx: 0
  r_shift: 2
- l_pos: true
  l_idx: 1
  r_pos: true
  r_idx: 1
  r_shift: 2
- l_pos: true
  l_idx: 1
  r_pos: true
  r_idx: 2
  r_shift: 6
1607:
- l_pos: false
  l_idx: 0
  r_pos: true
  r_idx: 0
  r_shift: 3
- l_pos: false
  l_idx: 1
  r_pos: true
  r_idx: 0
  r_shift: 5
- l_pos: true
  l_idx: 1
  r_pos: true
  r_idx: 2
  r_shift: 6
1609:
- l_pos: true
  l_idx: 0
  r_pos: true
  r_idx: 0
  r_shift: 3
- l_pos: true
  l_idx: 1
  r_pos: true
  r_idx: 0
  r_shift: 4
- l_pos: true
  l_idx: 1
  r_pos: true
  r_idx: 2
  r_shift: 6
1611:
- l_pos: true
  l_idx: 0
  r_pos: true
  r_idx: 0
  r_shift: 1
- l_pos: true
  l_idx: 0
  r_pos: true
  r_idx: 1
  r_shift: 3
- l_pos: true
  l_idx: 1
  r_pos: true
  r_idx: 2
  r_shift: 4
- l_pos: false
  l_idx: 0
  r_pos: true
  r_idx: 3
  r_shift: 2
1613:
- l_pos: true
  l_idx: 0
  r_pos: true
  r_idx: 0
  r_shift: 1
- l_pos: true
  l_idx: 0
  r_pos: true
  r_idx: 1
  r_shift: 3
- l_pos: true
  l_idx: 1
  r_pos: true
  r_idx: 2
  r_shift: 4
- l_pos: true
  l_idx: 0
  r_pos: true
  r_idx: 3
  r_shift: 2
1615:
- l_pos: true
  l_idx: 0
  r_pos: true
  r_idx: 0
  r_shift: 4
- l_pos: true
  l_idx: 1
  r_pos: true
  r_idx: 1
  r_shift: 1
- l_pos: false
  l_idx: 1
  r_pos: true
  r_idx: 2
  r_shift: 5
1617:
- l_pos: true
  l_idx: 0
  r_pos: true
  r_idx: 0
  r_shift: 4
- l_pos: true
  l_idx: 1
  r_pos: true
  r_idx: 0
  r_shift: 3
- l_pos: true
  l_idx: 1
  r_pos: true
  r_idx: 2
  r_shift: 6
1619:
- l_pos: true
  l_idx: 0
  r_pos: true
  r_idx: 0
  r_shift: 1
- l_pos: true
  l_idx: 1
  r_pos: true
  r_idx: 1
  r_shift: 4
- l_pos: false
  l_idx: 1
  r_pos: true
  r_idx: 2
  r_shift: 3
- l_pos: false
  l_idx: 0
  r_pos: true
  r_idx: 3
  r_shift: 2
1621:
- l_pos: true
  l_idx: 0
  r_pos: true
  r_idx: 0
  r_shift: 1
- l_pos: true
  l_idx: 1
  r_pos: true
  r_idx: 1
  r_shift: 4
- l_pos: false
  l_idx: 1
  r_pos: true
  r_idx: 2
  r_shift: 3
- l_pos: true
  l_idx: 0
  r_pos: true
  r_idx: 3
  r_shift: 2
1623:
- l_pos: true
  l_idx: 0
  r_pos: true
  r_idx: 0
  r_shift: 1
- l_pos: true
  l_idx: 1
  r_pos: true
  r_idx: 1
  r_shift: 4
- l_pos: false
  l_idx: 0
  r_pos: true
  r_idx: 2
  r_shift: 2
- l_pos: false
  l_idx: 0
  r_pos: true
  r_idx: 3
  r_shift: 3
1625:
- l_pos: true
  l_idx: 0
  r_pos: true
  r_idx: 0
  r_shift: 6
- l_pos: true
  l_idx: 1
  r_pos: true
  r_idx: 1
  r_shift: 1
- l_pos: true
  l_idx: 1
  r_pos: true
  r_idx: 2
  r_shift: 3
1627:
- l_pos: true
  l_idx: 0
  r_pos: true
  r_idx: 0
  r_shift: 1
- l_pos: true
  l_idx: 1
  r_pos: true
  r_idx: 1
  r_shift: 4
- l_pos: false
  l_idx: 0
  r_pos: true
  r_idx: 2
  r_shift: 3
- l_pos: false
  l_idx: 0
  r_pos: true
  r_idx: 3
  r_shift: 2
1629:
- l_pos: true
  l_idx: 0
  r_pos: true
  r_idx: 0
  r_shift: 1
- l_pos: true
  l_idx: 1
  r_pos: true
  r_idx: 1
  r_shift: 4
- l_pos: false
  l_idx: 1
  r_pos: true
  r_idx: 2
  r_shift: 5
1631:
- l_pos: true
  l_idx: 0
  r_pos: true
  r_idx: 0
  r_shift: 1
- l_pos: true
  l_idx: 1
  r_pos: true
  r_idx: 1
  r_shift: 4
- l_pos: false
  l_idx: 0
  r_pos: true
  r_idx: 2
  r_shift: 5
1633:
- l_pos: true
  l_idx: 0
  r_pos: true
  r_idx: 0
  r_shift: 1
- l_pos: true
  l_idx: 1
  r_pos: true
  r_idx: 1
  r_shift: 4
- l_pos: true
  l_idx: 0
  r_pos: true
  r_idx: 2
  r_shift: 5
1635:
- l_pos: true
  l_idx: 0
  r_pos: true
  r_idx: 0
  r_shift: 1
- l_pos: true
  l_idx: 1
  r_pos: true
  r_idx: 1
  r_shift: 4
- l_pos: true
  l_idx: 1
  r_pos: true
  r_idx: 2
  r_shift: 5
1637:
- l_pos: true
  l_idx: 0
  r_pos: true
  r_idx: 0
  r_shift: 1
- l_pos: true
  l_idx: 1
  r_pos: true
  r_idx: 1
  r_shift: 4
- l_pos: true
  l_idx: 0
  r_pos: true
  r_idx: 2
  r_shift: 3
- l_pos: true
  l_idx: 0
  r_pos: true
  r_idx: 3
  r_shift: 2
1639:
- l_pos: true
  l_idx: 0
  r_pos: true
  r_idx: 0
  r_shift: 1
- l_pos: true
  l_idx: 1
  r_pos: true
  r_idx: 1
  r_shift: 4
- l_pos: true
  l_idx: 0
  r_pos: true
  r_idx: 2
  r_shift: 2
- l_pos: false
  l_idx: 0
  r_pos: true
  r_idx: 3
  r_shift: 3
1641:
- l_pos: true
  l_idx: 0
  r_pos: true
  r_idx: 0
  r_shift: 1
- l_pos: true
  l_idx: 1
  r_pos: true
  r_idx: 1
  r_shift: 4
- l_pos: true
  l_idx: 0
  r_pos: true
  r_idx: 2
  r_shift: 2
- l_pos: true
  l_idx: 0
  r_pos: true
  r_idx: 3
  r_shift: 3
1643:
- l_pos: true
  l_idx: 0
  r_pos: true
  r_idx: 0
  r_shift: 1
- l_pos: true
  l_idx: 1
  r_pos: true
  r_idx: 1
  r_shift: 4
- l_pos: true
  l_idx: 1
  r_pos: true
  r_idx: 2
  r_shift: 3
- l_pos: false
  l_idx: 0
  r_pos: true
  r_idx: 3
  r_shift: 2
1645:
- l_pos: true
  l_idx: 0
  r_pos: true
  r_idx: 0
  r_shift: 1
- l_pos: true
  l_idx: 1
  r_pos: true
  r_idx: 1
  r_shift: 4
- l_pos: true
  l_idx: 1
  r_pos: true
  r_idx: 2
  r_shift: 3
- l_pos: true
  l_idx: 0
  r_pos: true
  r_idx: 3
  r_shift: 2
1647:
- l_pos: true
  l_idx: 0
  r_pos: true
  r_idx: 0
  r_shift: 4
- l_pos: true
  l_idx: 1
  r_pos: false
  r_idx: 0
  r_shift: 2
- l_pos: false
  l_idx: 1
  r_pos: true
  r_idx: 2
  r_shift: 7
1649:
- l_pos: true
  l_idx: 0
  r_pos: true
  r_idx: 0
  r_shift: 4
- l_pos: true
  l_idx: 1
  r_pos: true
  r_idx: 1
  r_shift: 1
- l_pos: true
  l_idx: 1
  r_pos: true
  r_idx: 2
  r_shift: 5
1651:
- l_pos: false
  l_idx: 0
  r_pos: true
  r_idx: 0
  r_shift: 7
- l_pos: true
  l_idx: 1
  r_pos: true
  r_idx: 1
  r_shift: 1
- l_pos: true
  l_idx: 1
  r_pos: true
  r_idx: 2
  r_shift: 2
1653:
- l_pos: true
  l_idx: 0
  r_pos: true
  r_idx: 0
  r_shift: 1
- l_pos: true
  l_idx: 0
  r_pos: true
  r_idx: 1
  r_shift: 2
- l_pos: false
  l_idx: 1
  r_pos: true
  r_idx: 2
  r_shift: 5
- l_pos: true
  l_idx: 0
  r_pos: true
  r_idx: 3
  r_shift: 2
1655:
- l_pos: true
  l_idx: 0
  r_pos: true
  r_idx: 0
  r_shift: 3
- l_pos: true
  l_idx: 1
  r_pos: true
  r_idx: 0
  r_shift: 2
- l_pos: false
  l_idx: 1
  r_pos: true
  r_idx: 2
  r_shift: 7
1657:
- l_pos: false
  l_idx: 0
  r_pos: true
  r_idx: 0
  r_shift: 3
- l_pos: false
  l_idx: 0
  r_pos: true
  r_idx: 1
  r_shift: 1
- l_pos: false
  l_idx: 1
  r_pos: true
  r_idx: 2
  r_shift: 7
1659:
- l_pos: true
  l_idx: 0
  r_pos: true
  r_idx: 0
  r_shift: 2
- l_pos: true
  l_idx: 1
  r_pos: true
  r_idx: 0
  r_shift: 3
- l_pos: false
  l_idx: 1
  r_pos: true
  r_idx: 2
  r_shift: 7
1661:
- l_pos: true
  l_idx: 0
  r_pos: true
  r_idx: 0
  r_shift: 1
- l_pos: true
  l_idx: 0
  r_pos: true
  r_idx: 1
  r_shift: 2
- l_pos: false
  l_idx: 1
  r_pos: true
  r_idx: 2
  r_shift: 7
1663:
- l_pos: true
  l_idx: 0
  r_pos: true
  r_idx: 0
  r_shift: 1
- l_pos: true
  l_idx: 0
  r_pos: true
  r_idx: 1
  r_shift: 2
- l_pos: false
  l_idx: 0
  r_pos: true
  r_idx: 2
  r_shift: 7
".
Definition text_27 : string := "1665:
- l_pos: true
  l_idx: 0
  r_pos: true
  r_idx: 0
  r_shift: 1
- l_pos: true
  l_idx: 0
  r_pos: true
  r_idx: 1
  r_shift: 2
- l_pos: true
  l_idx: 0
  r_pos: true
  r_idx: 2
  r_shift: 7
1667:
- l_pos: true
  l_idx: 0
  r_pos: true
  r_idx: 0
  r_shift: 1
- l_pos: true
  l_idx: 0
  r_pos: true
  r_idx: 1
  r_shift: 2
- l_pos: true
  l_idx: 1
  r_pos: true
  r_idx: 2
  r_shift: 7
1669:
- l_pos: true
  l_idx: 0
  r_pos: true
  r_idx: 0
  r_shift: 2
- l_pos: true
  l_idx: 1
  r_pos: true
  r_idx: 0
  r_shift: 3
- l_pos: true
  l_idx: 1
  r_pos: true
  r_idx: 2
  r_shift: 7
1671:
- l_pos: false
  l_idx: 0
  r_pos: true
  r_idx: 0
  r_shift: 3
- l_pos: false
  l_idx: 0
  r_pos: true
  r_idx: 1
  r_shift: 1
- l_pos: true
  l_idx: 1
  r_pos: true
  r_idx: 2
  r_shift: 7
1673:
- l_pos: true
  l_idx: 0
  r_pos: true
  r_idx: 0
  r_shift: 3
- l_pos: true
  l_idx: 1
  r_pos: true
  r_idx: 0
  r_shift: 2
- l_pos: true
  l_idx: 1
  r_pos: true
  r_idx: 2
  r_shift: 7
1675:
- l_pos: false
  l_idx: 0
  r_pos: true
  r_idx: 0
  r_shift: 3
- l_pos: false
  l_idx: 1
  r_pos: true
  r_idx: 1
  r_shift: 4
- l_pos: false
  l_idx: 0
  r_pos: true
  r_idx: 2
  r_shift: 2
- l_pos: false
  l_idx: 0
  r_pos: true
  r_idx: 3
  r_shift: 2
1677:
- l_pos: true
  l_idx: 0
  r_pos: true
  r_idx: 0
  r_shift: 7
- l_pos: true
  l_idx: 1
  r_pos: true
  r_idx: 1
  r_shift: 1
- l_pos: true
  l_idx: 1
  r_pos: true
  r_idx: 2
  r_shift: 2
1679:
- l_pos: false
  l_idx: 0
  r_pos: true
  r_idx: 0
  r_shift: 3
- l_pos: false
  l_idx: 1
  r_pos: true
  r_idx: 1
  r_shift: 4
- l_pos: false
  l_idx: 0
  r_pos: true
  r_idx: 2
  r_shift: 4
1681:
- l_pos: false
  l_idx: 0
  r_pos: true
  r_idx: 0
  r_shift: 3
- l_pos: false
  l_idx: 1
  r_pos: true
  r_idx: 1
  r_shift: 4
- l_pos: true
  l_idx: 0
  r_pos: true
  r_idx: 2
  r_shift: 4
1683:
- l_pos: true
  l_idx: 0
  r_pos: true
  r_idx: 0
  r_shift: 1
- l_pos: true
  l_idx: 1
  r_pos: true
  r_idx: 1
  r_shift: 4
- l_pos: true
  l_idx: 2
  r_pos: true
  r_idx: 2
  r_shift: 5
1685:
- l_pos: false
  l_idx: 0
  r_pos: true
  r_idx: 0
  r_shift: 3
- l_pos: false
  l_idx: 1
  r_pos: true
  r_idx: 1
  r_shift: 4
- l_pos: true
  l_idx: 0
  r_pos: true
  r_idx: 2
  r_shift: 2
- l_pos: true
  l_idx: 0
  r_pos: true
  r_idx: 3
  r_shift: 2
1687:
- l_pos: false
  l_idx: 0
  r_pos: true
  r_idx: 0
  r_shift: 3
- l_pos: false
  l_idx: 1
  r_pos: true
  r_idx: 1
  r_shift: 4
- l_pos: true
  l_idx: 1
  r_pos: true
  r_idx: 2
  r_shift: 4
1689:
- l_pos: false
  l_idx: 0
  r_pos: true
  r_idx: 0
  r_shift: 3
- l_pos: false
  l_idx: 1
  r_pos: true
  r_idx: 1
  r_shift: 4
- l_pos: true
  l_idx: 0
  r_pos: true
  r_idx: 2
  r_shift: 1
- l_pos: true
  l_idx: 0
  r_pos: true
  r_idx: 3
  r_shift: 3
1691:
- l_pos: true
  l_idx: 0
  r_pos: true
  r_idx: 0
  r_shift: 3
- l_pos: true
  l_idx: 1
  r_pos: true
  r_idx: 1
  r_shift: 1
- l_pos: false
  l_idx: 1
  r_pos: true
  r_idx: 2
  r_shift: 4
- l_pos: false
  l_idx: 0
  r_pos: true
  r_idx: 3
  r_shift: 2
1693:
- l_pos: true
  l_idx: 0
  r_pos: true
  r_idx: 0
  r_shift: 3
- l_pos: true
  l_idx: 1
  r_pos: true
  r_idx: 1
  r_shift: 1
- l_pos: false
  l_idx: 1
  r_pos: true
  r_idx: 2
  r_shift: 4
- l_pos: true
  l_idx: 0
  r_pos: true
  r_idx: 3
  r_shift: 2
1695:
- l_pos: false
  l_idx: 0
  r_pos: true
  r_idx: 0
  r_shift: 4
- l_pos: false
  l_idx: 1
  r_pos: true
  r_idx: 1
  r_shift: 3
- l_pos: true
  l_idx: 1
  r_pos: true
  r_idx: 2
  r_shift: 4
1697:
- l_pos: false
  l_idx: 0
  r_pos: true
  r_idx: 0
  r_shift: 5
- l_pos: true
  l_idx: 1
  r_pos: false
  r_idx: 0
  r_shift: 2
- l_pos: false
  l_idx: 1
  r_pos: true
  r_idx: 2
  r_shift: 6
1699:
- l_pos: true
  l_idx: 0
  r_pos: true
  r_idx: 0
  r_shift: 3
- l_pos: true
  l_idx: 1
  r_pos: true
  r_idx: 0
  r_shift: 2
- l_pos: true
  l_idx: 1
  r_pos: true
  r_idx: 2
  r_shift: 5
- l_pos: false
  l_idx: 0
  r_pos: true
  r_idx: 3
  r_shift: 2
1701:
- l_pos: false
  l_idx: 0
  r_pos: true
  r_idx: 0
  r_shift: 6
- l_pos: false
  l_idx: 1
  r_pos: true
  r_idx: 1
  r_shift: 3
- l_pos: false
  l_idx: 1
  r_pos: true
  r_idx: 2
  r_shift: 2
1703:
- l_pos: true
  l_idx: 0
  r_pos: true
  r_idx: 0
  r_shift: 1
- l_pos: true
  l_idx: 1
  r_pos: true
  r_idx: 1
  r_shift: 3
- l_pos: false
  l_idx: 1
  r_pos: true
  r_idx: 2
  r_shift: 3
- l_pos: false
  l_idx: 0
  r_pos: true
  r_idx: 3
  r_shift: 3
1705:
- l_pos: false
  l_idx: 0
  r_pos: true
  r_idx: 0
  r_shift: 5
- l_pos: false
  l_idx: 1
  r_pos: true
  r_idx: 1
  r_shift: 3
- l_pos: false
  l_idx: 1
  r_pos: true
  r_idx: 2
  r_shift: 3
1707:
- l_pos: true
  l_idx: 0
  r_pos: true
  r_idx: 0
  r_shift: 2
- l_pos: false
  l_idx: 1
  r_pos: true
  r_idx: 0
  r_shift: 5
- l_pos: false
  l_idx: 1
  r_pos: true
  r_idx: 2
  r_shift: 4
- l_pos: false
  l_idx: 0
  r_pos: true
  r_idx: 3
  r_shift: 2
1709:
- l_pos: true
  l_idx: 0
  r_pos: true
  r_idx: 0
  r_shift: 2
- l_pos: false
  l_idx: 1
  r_pos: true
  r_idx: 0
  r_shift: 5
- l_pos: false
  l_idx: 1
  r_pos: true
  r_idx: 2
  r_shift: 4
- l_pos: true
  l_idx: 0
  r_pos: true
  r_idx: 3
  r_shift: 2
1711:
- l_pos: false
  l_idx: 0
  r_pos: true
  r_idx: 0
  r_shift: 3
- l_pos: false
  l_idx: 0
  r_pos: true
  r_idx: 1
  r_shift: 2
- l_pos: false
  l_idx: 0
  r_pos: true
  r_idx: 2
  r_shift: 2
- l_pos: false
  l_idx: 0
  r_pos: true
  r_idx: 3
  r_shift: 4
1713:
- l_pos: false
  l_idx: 0
  r_pos: true
  r_idx: 0
  r_shift: 3
- l_pos: false
  l_idx: 0
  r_pos: true
  r_idx: 1
  r_shift: 2
- l_pos: false
  l_idx: 0
  r_pos: true
  r_idx: 2
  r_shift: 2
- l_pos: true
  l_idx: 0
  r_pos: true
  r_idx: 3
  r_shift: 4
1715:
- l_pos: true
  l_idx: 0
  r_pos: true
  r_idx: 0
  r_shift: 1
- l_pos: true
  l_idx: 1
  r_pos: true
  r_idx: 1
  r_shift: 3
- l_pos: false
  l_idx: 1
  r_pos: true
  r_idx: 2
  r_shift: 4
- l_pos: false
  l_idx: 0
  r_pos: true
  r_idx: 3
  r_shift: 2
1717:
- l_pos: true
  l_idx: 0
  r_pos: true
  r_idx: 0
  r_shift: 1
- l_pos: true
  l_idx: 1
  r_pos: true
  r_idx: 1
  r_shift: 3
- l_pos: false
  l_idx: 1
  r_pos: true
  r_idx: 2
  r_shift: 4
- l_pos: true
  l_idx: 0
  r_pos: true
  r_idx: 3
  r_shift: 2
1719:
- l_pos: true
  l_idx: 0
  r_pos: true
  r_idx: 0
  r_shift: 3
- l_pos: true
  l_idx: 1
  r_pos: true
  r_idx: 1
  r_shift: 1
- l_pos: false
  l_idx: 1
  r_pos: true
  r_idx: 2
  r_shift: 6
1721:
- l_pos: false
  l_idx: 0
  r_pos: true
  r_idx: 0
  r_shift: 3
- l_pos: false
  l_idx: 0
  r_pos: true
  r_idx: 1
  r_shift: 2
- l_pos: false
  l_idx: 1
  r_pos: true
  r_idx: 2
  r_shift: 6
1723:
- l_pos: true
  l_idx: 0
  r_pos: true
  r_idx: 0
  r_shift: 2
- l_pos: false
  l_idx: 1
  r_pos: true
  r_idx: 0
  r_shift: 5
- l_pos: false
  l_idx: 1
  r_pos: true
  r_idx: 2
  r_shift: 6
1725:
- l_pos: true
  l_idx: 0
  r_pos: true
  r_idx: 0
  r_shift: 1
- l_pos: true
  l_idx: 1
  r_pos: true
  r_idx: 1
  r_shift: 3
- l_pos: false
  l_idx: 1
  r_pos: true
  r_idx: 2
  r_shift: 6
1727:
- l_pos: false
  l_idx: 0
  r_pos: true
  r_idx: 0
  r_shift: 3
- l_pos: false
  l_idx: 0
  r_pos: true
  r_idx: 1
  r_shift: 2
- l_pos: false
  l_idx: 0
  r_pos: true
  r_idx: 2
  r_shift: 6
".
Definition text_28 : string := "1729:
- l_pos: false
  l_idx: 0
  r_pos: true
  r_idx: 0
  r_shift: 3
- l_pos: false
  l_idx: 0
  r_pos: true
  r_idx: 1
  r_shift: 2
- l_pos: true
  l_idx: 0
  r_pos: true
  r_idx: 2
  r_shift: 6
1731:
- l_pos: true
  l_idx: 0
  r_pos: true
  r_idx: 0
  r_shift: 1
- l_pos: true
  l_idx: 1
  r_pos: true
  r_idx: 1
  r_shift: 3
- l_pos: true
  l_idx: 1
  r_pos: true
  r_idx: 2
  r_shift: 6
1733:
- l_pos: true
  l_idx: 0
  r_pos: true
  r_idx: 0
  r_shift: 2
- l_pos: false
  l_idx: 1
  r_pos: true
  r_idx: 0
  r_shift: 5
- l_pos: true
  l_idx: 1
  r_pos: true
  r_idx: 2
  r_shift: 6
1735:
- l_pos: false
  l_idx: 0
  r_pos: true
  r_idx: 0
  r_shift: 3
- l_pos: false
  l_idx: 1
  r_pos: true
  r_idx: 1
  r_shift: 5
- l_pos: false
  l_idx: 0
  r_pos: true
  r_idx: 2
  r_shift: 3
1737:
- l_pos: false
  l_idx: 0
  r_pos: true
  r_idx: 0
  r_shift: 3
- l_pos: false
  l_idx: 1
  r_pos: true
  r_idx: 1
  r_shift: 5
- l_pos: true
  l_idx: 0
  r_pos: true
  r_idx: 2
  r_shift: 3
1739:
- l_pos: false
  l_idx: 0
  r_pos: true
  r_idx: 0
  r_shift: 3
- l_pos: false
  l_idx: 1
  r_pos: true
  r_idx: 1
  r_shift: 5
- l_pos: true
  l_idx: 0
  r_pos: true
  r_idx: 2
  r_shift: 1
- l_pos: false
  l_idx: 0
  r_pos: true
  r_idx: 3
  r_shift: 2
1741:
- l_pos: false
  l_idx: 0
  r_pos: true
  r_idx: 0
  r_shift: 3
- l_pos: false
  l_idx: 1
  r_pos: true
  r_idx: 1
  r_shift: 5
- l_pos: true
  l_idx: 0
  r_pos: true
  r_idx: 2
  r_shift: 1
- l_pos: true
  l_idx: 0
  r_pos: true
  r_idx: 3
  r_shift: 2
1743:
- l_pos: false
  l_idx: 0
  r_pos: true
  r_idx: 0
  r_shift: 3
- l_pos: false
  l_idx: 1
  r_pos: true
  r_idx: 1
  r_shift: 5
- l_pos: true
  l_idx: 1
  r_pos: true
  r_idx: 2
  r_shift: 3
1745:
- l_pos: false
  l_idx: 0
  r_pos: true
  r_idx: 0
  r_shift: 3
- l_pos: false
  l_idx: 0
  r_pos: true
  r_idx: 1
  r_shift: 2
- l_pos: true
  l_idx: 0
  r_pos: true
  r_idx: 2
  r_shift: 2
- l_pos: true
  l_idx: 0
  r_pos: true
  r_idx: 3
  r_shift: 4
1747:
- l_pos: true
  l_idx: 0
  r_pos: true
  r_idx: 0
  r_shift: 2
- l_pos: false
  l_idx: 1
  r_pos: true
  r_idx: 0
  r_shift: 5
- l_pos: true
  l_idx: 1
  r_pos: true
  r_idx: 2
  r_shift: 4
- l_pos: false
  l_idx: 0
  r_pos: true
  r_idx: 3
  r_shift: 2
1749:
- l_pos: true
  l_idx: 0
  r_pos: true
  r_idx: 0
  r_shift: 2
- l_pos: false
  l_idx: 1
  r_pos: true
  r_idx: 0
  r_shift: 5
- l_pos: true
  l_idx: 1
  r_pos: true
  r_idx: 2
  r_shift: 4
- l_pos: true
  l_idx: 0
  r_pos: true
  r_idx: 3
  r_shift: 2
1751:
- l_pos: true
  l_idx: 0
  r_pos: true
  r_idx: 0
  r_shift: 3
- l_pos: false
  l_idx: 1
  r_pos: true
  r_idx: 0
  r_shift: 6
- l_pos: false
  l_idx: 1
  r_pos: true
  r_idx: 2
  r_shift: 5
1753:
- l_pos: false
  l_idx: 0
  r_pos: true
  r_idx: 0
  r_shift: 3
- l_pos: false
  l_idx: 0
  r_pos: true
  r_idx: 1
  r_shift: 3
- l_pos: false
  l_idx: 1
  r_pos: true
  r_idx: 2
  r_shift: 5
1755:
- l_pos: true
  l_idx: 0
  r_pos: true
  r_idx: 0
  r_shift: 6
- l_pos: false
  l_idx: 1
  r_pos: true
  r_idx: 1
  r_shift: 3
- l_pos: false
  l_idx: 1
  r_pos: true
  r_idx: 2
  r_shift: 2
1757:
- l_pos: false
  l_idx: 0
  r_pos: true
  r_idx: 0
  r_shift: 3
- l_pos: false
  l_idx: 1
  r_pos: true
  r_idx: 1
  r_shift: 6
- l_pos: false
  l_idx: 1
  r_pos: true
  r_idx: 2
  r_shift: 2
1759:
- l_pos: false
  l_idx: 0
  r_pos: true
  r_idx: 0
  r_shift: 3
- l_pos: false
  l_idx: 0
  r_pos: true
  r_idx: 1
  r_shift: 3
- l_pos: false
  l_idx: 0
  r_pos: true
  r_idx: 2
  r_shift: 5
1761:
- l_pos: false
  l_idx: 0
  r_pos: true
  r_idx: 0
  r_shift: 3
- l_pos: false
  l_idx: 0
  r_pos: true
  r_idx: 1
  r_shift: 3
- l_pos: true
  l_idx: 0
  r_pos: true
  r_idx: 2
  r_shift: 5
1763:
- l_pos: false
  l_idx: 0
  r_pos: true
  r_idx: 0
  r_shift: 3
- l_pos: false
  l_idx: 1
  r_pos: true
  r_idx: 1
  r_shift: 6
- l_pos: false
  l_idx: 0
  r_pos: true
  r_idx: 2
  r_shift: 2
1765:
- l_pos: false
  l_idx: 0
  r_pos: true
  r_idx: 0
  r_shift: 3
- l_pos: false
  l_idx: 1
  r_pos: true
  r_idx: 1
  r_shift: 6
- l_pos: true
  l_idx: 0
  r_pos: true
  r_idx: 2
  r_shift: 2
1767:
- l_pos: false
  l_idx: 0
  r_pos: true
  r_idx: 0
  r_shift: 3
- l_pos: false
  l_idx: 0
  r_pos: true
  r_idx: 1
  r_shift: 3
- l_pos: true
  l_idx: 1
  r_pos: true
  r_idx: 2
  r_shift: 5
1769:
- l_pos: true
  l_idx: 0
  r_pos: true
  r_idx: 0
  r_shift: 3
- l_pos: false
  l_idx: 1
  r_pos: true
  r_idx: 0
  r_shift: 6
- l_pos: true
  l_idx: 1
  r_pos: true
  r_idx: 2
  r_shift: 5
1771:
- l_pos: false
  l_idx: 0
  r_pos: true
  r_idx: 0
  r_shift: 3
- l_pos: false
  l_idx: 1
  r_pos: true
  r_idx: 1
  r_shift: 6
- l_pos: true
  l_idx: 1
  r_pos: true
  r_idx: 2
  r_shift: 2
1773:
- l_pos: false
  l_idx: 0
  r_pos: true
  r_idx: 0
  r_shift: 3
- l_pos: false
  l_idx: 0
  r_pos: true
  r_idx: 1
  r_shift: 4
- l_pos: false
  l_idx: 0
  r_pos: true
  r_idx: 2
  r_shift: 2
- l_pos: true
  l_idx: 0
  r_pos: true
  r_idx: 3
  r_shift: 2
1775:
- l_pos: false
  l_idx: 0
  r_pos: true
  r_idx: 0
  r_shift: 3
- l_pos: false
  l_idx: 0
  r_pos: true
  r_idx: 1
  r_shift: 4
- l_pos: false
  l_idx: 0
  r_pos: true
  r_idx: 2
  r_shift: 4
1777:
- l_pos: false
  l_idx: 0
  r_pos: true
  r_idx: 0
  r_shift: 3
- l_pos: false
  l_idx: 0
  r_pos: true
  r_idx: 1
  r_shift: 4
- l_pos: true
  l_idx: 0
  r_pos: true
  r_idx: 2
  r_shift: 4
1779:
- l_pos: false
  l_idx: 0
  r_pos: true
  r_idx: 0
  r_shift: 3
- l_pos: false
  l_idx: 1
  r_pos: true
  r_idx: 1
  r_shift: 7
- l_pos: true
  l_idx: 0
  r_pos: true
  r_idx: 2
  r_shift: 1
1781:
- l_pos: false
  l_idx: 0
  r_pos: true
  r_idx: 0
  r_shift: 3
- l_pos: false
  l_idx: 0
  r_pos: true
  r_idx: 1
  r_shift: 6
- l_pos: false
  l_idx: 1
  r_pos: true
  r_idx: 2
  r_shift: 2
1783:
- l_pos: false
  l_idx: 0
  r_pos: true
  r_idx: 0
  r_shift: 3
- l_pos: false
  l_idx: 0
  r_pos: true
  r_idx: 1
  r_shift: 5
- l_pos: false
  l_idx: 0
  r_pos: true
  r_idx: 2
  r_shift: 3
1785:
- l_pos: false
  l_idx: 0
  r_pos: true
  r_idx: 0
  r_shift: 3
- l_pos: false
  l_idx: 1
  r_pos: true
  r_idx: 1
  r_shift: 8
1787:
- l_pos: false
  l_idx: 0
  r_pos: true
  r_idx: 0
  r_shift: 3
- l_pos: false
  l_idx: 0
  r_pos: true
  r_idx: 1
  r_shift: 6
- l_pos: false
  l_idx: 0
  r_pos: true
  r_idx: 2
  r_shift: 2
1789:
- l_pos: false
  l_idx: 0
  r_pos: true
  r_idx: 0
  r_shift: 3
- l_pos: false
  l_idx: 0
  r_pos: true
  r_idx: 1
  r_shift: 6
- l_pos: true
  l_idx: 0
  r_pos: true
  r_idx: 2
  r_shift: 2
1791:
- l_pos: false
  l_idx: 0
  r_pos: true
  r_idx: 0
  r_shift: 3
- l_pos: false
  l_idx: 0
  r_pos: true
  r_idx: 1
  r_shift: 8
".
Definition text_29 : string := "1793:
- l_pos: false
  l_idx: 0
  r_pos: true
  r_idx: 0
  r_shift: 3
- l_pos: true
  l_idx: 0
  r_pos: true
  r_idx: 1
  r_shift: 8
1795:
- l_pos: false
  l_idx: 0
  r_pos: true
  r_idx: 0
  r_shift: 3
- l_pos: true
  l_idx: 0
  r_pos: true
  r_idx: 1
  r_shift: 6
- l_pos: false
  l_idx: 0
  r_pos: true
  r_idx: 2
  r_shift: 2
1797:
- l_pos: false
  l_idx: 0
  r_pos: true
  r_idx: 0
  r_shift: 3
- l_pos: true
  l_idx: 0
  r_pos: true
  r_idx: 1
  r_shift: 6
- l_pos: true
  l_idx: 0
  r_pos: true
  r_idx: 2
  r_shift: 2
1799:
- l_pos: false
  l_idx: 0
  r_pos: true
  r_idx: 0
  r_shift: 3
- l_pos: true
  l_idx: 1
  r_pos: true
  r_idx: 1
  r_shift: 8
1801:
- l_pos: false
  l_idx: 0
  r_pos: true
  r_idx: 0
  r_shift: 3
- l_pos: true
  l_idx: 0
  r_pos: true
  r_idx: 1
  r_shift: 5
- l_pos: true
  l_idx: 0
  r_pos: true
  r_idx: 2
  r_shift: 3
1803:
- l_pos: false
  l_idx: 0
  r_pos: true
  r_idx: 0
  r_shift: 3
- l_pos: true
  l_idx: 0
  r_pos: true
  r_idx: 1
  r_shift: 6
- l_pos: true
  l_idx: 1
  r_pos: true
  r_idx: 2
  r_shift: 2
1805:
- l_pos: false
  l_idx: 0
  r_pos: true
  r_idx: 0
  r_shift: 3
- l_pos: true
  l_idx: 1
  r_pos: true
  r_idx: 1
  r_shift: 7
- l_pos: false
  l_idx: 0
  r_pos: true
  r_idx: 2
  r_shift: 1
1807:
- l_pos: false
  l_idx: 0
  r_pos: true
  r_idx: 0
  r_shift: 3
- l_pos: true
  l_idx: 0
  r_pos: true
  r_idx: 1
  r_shift: 4
- l_pos: false
  l_idx: 0
  r_pos: true
  r_idx: 2
  r_shift: 4
1809:
- l_pos: false
  l_idx: 0
  r_pos: true
  r_idx: 0
  r_shift: 3
- l_pos: true
  l_idx: 0
  r_pos: true
  r_idx: 1
  r_shift: 4
- l_pos: true
  l_idx: 0
  r_pos: true
  r_idx: 2
  r_shift: 4
1811:
- l_pos: false
  l_idx: 0
  r_pos: true
  r_idx: 0
  r_shift: 3
- l_pos: true
  l_idx: 0
  r_pos: true
  r_idx: 1
  r_shift: 4
- l_pos: true
  l_idx: 0
  r_pos: true
  r_idx: 2
  r_shift: 2
- l_pos: false
  l_idx: 0
  r_pos: true
  r_idx: 3
  r_shift: 2
1813:
- l_pos: false
  l_idx: 0
  r_pos: true
  r_idx: 0
  r_shift: 3
- l_pos: true
  l_idx: 1
  r_pos: true
  r_idx: 1
  r_shift: 6
- l_pos: false
  l_idx: 1
  r_pos: true
  r_idx: 2
  r_shift: 2
1815:
- l_pos: false
  l_idx: 0
  r_pos: true
  r_idx: 0
  r_shift: 3
- l_pos: true
  l_idx: 0
  r_pos: true
  r_idx: 1
  r_shift: 4
- l_pos: true
  l_idx: 1
  r_pos: true
  r_idx: 2
  r_shift: 4
1817:
- l_pos: false
  l_idx: 0
  r_pos: true
  r_idx: 0
  r_shift: 3
- l_pos: true
  l_idx: 0
  r_pos: true
  r_idx: 1
  r_shift: 3
- l_pos: false
  l_idx: 1
  r_pos: true
  r_idx: 2
  r_shift: 5
1819:
- l_pos: false
  l_idx: 0
  r_pos: true
  r_idx: 0
  r_shift: 3
- l_pos: true
  l_idx: 1
  r_pos: true
  r_idx: 1
  r_shift: 6
- l_pos: false
  l_idx: 0
  r_pos: true
  r_idx: 2
  r_shift: 2
1821:
- l_pos: false
  l_idx: 0
  r_pos: true
  r_idx: 0
  r_shift: 3
- l_pos: true
  l_idx: 1
  r_pos: true
  r_idx: 1
  r_shift: 6
- l_pos: true
  l_idx: 0
  r_pos: true
  r_idx: 2
  r_shift: 2
1823:
- l_pos: false
  l_idx: 0
  r_pos: true
  r_idx: 0
  r_shift: 3
- l_pos: true
  l_idx: 0
  r_pos: true
  r_idx: 1
  r_shift: 3
- l_pos: false
  l_idx: 0
  r_pos: true
  r_idx: 2
  r_shift: 5
1825:
- l_pos: false
  l_idx: 0
  r_pos: true
  r_idx: 0
  r_shift: 3
- l_pos: true
  l_idx: 0
  r_pos: true
  r_idx: 1
  r_shift: 3
- l_pos: true
  l_idx: 0
  r_pos: true
  r_idx: 2
  r_shift: 5
1827:
- l_pos: false
  l_idx: 0
  r_pos: true
  r_idx: 0
  r_shift: 3
- l_pos: true
  l_idx: 1
  r_pos: true
  r_idx: 1
  r_shift: 6
- l_pos: true
  l_idx: 1
  r_pos: true
  r_idx: 2
  r_shift: 2
1829:
- l_pos: false
  l_idx: 0
  r_pos: true
  r_idx: 0
  r_shift: 5
- l_pos: false
  l_idx: 1
  r_pos: true
  r_idx: 1
  r_shift: 4
- l_pos: false
  l_idx: 1
  r_pos: true
  r_idx: 2
  r_shift: 2
1831:
- l_pos: false
  l_idx: 0
  r_pos: true
  r_idx: 0
  r_shift: 3
- l_pos: true
  l_idx: 0
  r_pos: true
  r_idx: 1
  r_shift: 3
- l_pos: true
  l_idx: 1
  r_pos: true
  r_idx: 2
  r_shift: 5
1833:
- l_pos: false
  l_idx: 0
  r_pos: true
  r_idx: 0
  r_shift: 3
- l_pos: true
  l_idx: 0
  r_pos: true
  r_idx: 1
  r_shift: 3
- l_pos: true
  l_idx: 0
  r_pos: true
  r_idx: 2
  r_shift: 2
- l_pos: true
  l_idx: 0
  r_pos: true
  r_idx: 3
  r_shift: 3
1835:
- l_pos: false
  l_idx: 0
  r_pos: true
  r_idx: 0
  r_shift: 3
- l_pos: true
  l_idx: 0
  r_pos: true
  r_idx: 1
  r_shift: 4
- l_pos: true
  l_idx: 1
  r_pos: true
  r_idx: 2
  r_shift: 2
- l_pos: false
  l_idx: 0
  r_pos: true
  r_idx: 3
  r_shift: 2
1837:
- l_pos: false
  l_idx: 0
  r_pos: true
  r_idx: 0
  r_shift: 3
- l_pos: true
  l_idx: 0
  r_pos: true
  r_idx: 1
  r_shift: 3
- l_pos: true
  l_idx: 1
  r_pos: true
  r_idx: 2
  r_shift: 4
- l_pos: false
  l_idx: 0
  r_pos: true
  r_idx: 3
  r_shift: 1
1839:
- l_pos: false
  l_idx: 0
  r_pos: true
  r_idx: 0
  r_shift: 3
- l_pos: true
  l_idx: 0
  r_pos: true
  r_idx: 1
  r_shift: 2
- l_pos: false
  l_idx: 0
  r_pos: true
  r_idx: 2
  r_shift: 2
- l_pos: false
  l_idx: 0
  r_pos: true
  r_idx: 3
  r_shift: 4
1841:
- l_pos: false
  l_idx: 0
  r_pos: true
  r_idx: 0
  r_shift: 3
- l_pos: true
  l_idx: 1
  r_pos: true
  r_idx: 1
  r_shift: 5
- l_pos: false
  l_idx: 1
  r_pos: true
  r_idx: 2
  r_shift: 3
1843:
- l_pos: false
  l_idx: 0
  r_pos: true
  r_idx: 0
  r_shift: 3
- l_pos: true
  l_idx: 1
  r_pos: true
  r_idx: 1
  r_shift: 5
- l_pos: false
  l_idx: 0
  r_pos: true
  r_idx: 2
  r_shift: 1
- l_pos: false
  l_idx: 0
  r_pos: true
  r_idx: 3
  r_shift: 2
1845:
- l_pos: false
  l_idx: 0
  r_pos: true
  r_idx: 0
  r_shift: 4
- l_pos: false
  l_idx: 1
  r_pos: true
  r_idx: 1
  r_shift: 5
- l_pos: false
  l_idx: 1
  r_pos: true
  r_idx: 2
  r_shift: 2
1847:
- l_pos: false
  l_idx: 0
  r_pos: true
  r_idx: 0
  r_shift: 3
- l_pos: true
  l_idx: 1
  r_pos: true
  r_idx: 1
  r_shift: 5
- l_pos: false
  l_idx: 0
  r_pos: true
  r_idx: 2
  r_shift: 3
1849:
- l_pos: false
  l_idx: 0
  r_pos: true
  r_idx: 0
  r_shift: 3
- l_pos: true
  l_idx: 1
  r_pos: true
  r_idx: 1
  r_shift: 5
- l_pos: true
  l_idx: 0
  r_pos: true
  r_idx: 2
  r_shift: 3
1851:
- l_pos: false
  l_idx: 0
  r_pos: true
  r_idx: 0
  r_shift: 3
- l_pos: true
  l_idx: 0
  r_pos: true
  r_idx: 1
  r_shift: 2
- l_pos: false
  l_idx: 0
  r_pos: true
  r_idx: 2
  r_shift: 4
- l_pos: false
  l_idx: 0
  r_pos: true
  r_idx: 3
  r_shift: 2
1853:
- l_pos: true
  l_idx: 0
  r_pos: true
  r_idx: 0
  r_shift: 1
- l_pos: false
  l_idx: 1
  r_pos: true
  r_idx: 0
  r_shift: 5
- l_pos: false
  l_idx: 1
  r_pos: true
  r_idx: 2
  r_shift: 6
1855:
- l_pos: false
  l_idx: 0
  r_pos: true
  r_idx: 0
  r_shift: 3
- l_pos: true
  l_idx: 0
  r_pos: true
  r_idx: 1
  r_shift: 2
- l_pos: false
  l_idx: 0
  r_pos: true
  r_idx: 2
  r_shift: 6
".
Definition text_30 : string := "1857:
- l_pos: false
  l_idx: 0
  r_pos: true
  r_idx: 0
  r_shift: 3
- l_pos: true
  l_idx: 0
  r_pos: true
  r_idx: 1
  r_shift: 2
- l_pos: true
  l_idx: 0
  r_pos: true
  r_idx: 2
  r_shift: 6
1859:
- l_pos: false
  l_idx: 0
  r_pos: true
  r_idx: 0
  r_shift: 4
- l_pos: false
  l_idx: 1
  r_pos: true
  r_idx: 1
  r_shift: 5
- l_pos: false
  l_idx: 0
  r_pos: true
  r_idx: 2
  r_shift: 2
1861:
- l_pos: false
  l_idx: 0
  r_pos: true
  r_idx: 0
  r_shift: 4
- l_pos: false
  l_idx: 1
  r_pos: true
  r_idx: 1
  r_shift: 5
- l_pos: true
  l_idx: 0
  r_pos: true
  r_idx: 2
  r_shift: 2
1863:
- l_pos: false
  l_idx: 0
  r_pos: true
  r_idx: 0
  r_shift: 3
- l_pos: true
  l_idx: 0
  r_pos: true
  r_idx: 1
  r_shift: 2
- l_pos: true
  l_idx: 1
  r_pos: true
  r_idx: 2
  r_shift: 6
1865:
- l_pos: false
  l_idx: 0
  r_pos: true
  r_idx: 0
  r_shift: 3
- l_pos: true
  l_idx: 0
  r_pos: true
  r_idx: 1
  r_shift: 2
- l_pos: true
  l_idx: 0
  r_pos: true
  r_idx: 2
  r_shift: 3
- l_pos: true
  l_idx: 0
  r_pos: true
  r_idx: 3
  r_shift: 3
1867:
- l_pos: true
  l_idx: 0
  r_pos: true
  r_idx: 0
  r_shift: 1
- l_pos: false
  l_idx: 1
  r_pos: true
  r_idx: 0
  r_shift: 5
- l_pos: true
  l_idx: 1
  r_pos: true
  r_idx: 2
  r_shift: 4
- l_pos: false
  l_idx: 0
  r_pos: true
  r_idx: 3
  r_shift: 2
1869:
- l_pos: true
  l_idx: 0
  r_pos: true
  r_idx: 0
  r_shift: 1
- l_pos: false
  l_idx: 1
  r_pos: true
  r_idx: 0
  r_shift: 5
- l_pos: true
  l_idx: 1
  r_pos: true
  r_idx: 2
  r_shift: 4
- l_pos: true
  l_idx: 0
  r_pos: true
  r_idx: 3
  r_shift: 2
1871:
- l_pos: false
  l_idx: 0
  r_pos: true
  r_idx: 0
  r_shift: 4
- l_pos: false
  l_idx: 0
  r_pos: true
  r_idx: 1
  r_shift: 1
- l_pos: true
  l_idx: 1
  r_pos: true
  r_idx: 2
  r_shift: 6
1873:
- l_pos: false
  l_idx: 0
  r_pos: true
  r_idx: 0
  r_shift: 4
- l_pos: false
  l_idx: 0
  r_pos: true
  r_idx: 1
  r_shift: 2
- l_pos: false
  l_idx: 1
  r_pos: true
  r_idx: 2
  r_shift: 5
1875:
- l_pos: false
  l_idx: 0
  r_pos: true
  r_idx: 0
  r_shift: 4
- l_pos: false
  l_idx: 1
  r_pos: true
  r_idx: 1
  r_shift: 5
- l_pos: true
  l_idx: 1
  r_pos: true
  r_idx: 2
  r_shift: 2
1877:
- l_pos: true
  l_idx: 0
  r_pos: true
  r_idx: 0
  r_shift: 2
- l_pos: false
  l_idx: 1
  r_pos: true
  r_idx: 0
  r_shift: 6
- l_pos: false
  l_idx: 1
  r_pos: true
  r_idx: 2
  r_shift: 4
- l_pos: false
  l_idx: 0
  r_pos: true
  r_idx: 3
  r_shift: 1
1879:
- l_pos: false
  l_idx: 0
  r_pos: true
  r_idx: 0
  r_shift: 4
- l_pos: false
  l_idx: 0
  r_pos: true
  r_idx: 1
  r_shift: 2
- l_pos: false
  l_idx: 0
  r_pos: true
  r_idx: 2
  r_shift: 2
- l_pos: false
  l_idx: 0
  r_pos: true
  r_idx: 3
  r_shift: 3
1881:
- l_pos: true
  l_idx: 0
  r_pos: true
  r_idx: 0
  r_shift: 5
- l_pos: false
  l_idx: 1
  r_pos: true
  r_idx: 1
  r_shift: 3
- l_pos: true
  l_idx: 1
  r_pos: true
  r_idx: 2
  r_shift: 3
1883:
- l_pos: true
  l_idx: 0
  r_pos: true
  r_idx: 0
  r_shift: 2
- l_pos: false
  l_idx: 1
  r_pos: true
  r_idx: 0
  r_shift: 6
- l_pos: false
  l_idx: 1
  r_pos: true
  r_idx: 2
  r_shift: 5
1885:
- l_pos: true
  l_idx: 0
  r_pos: true
  r_idx: 0
  r_shift: 6
- l_pos: false
  l_idx: 1
  r_pos: true
  r_idx: 1
  r_shift: 3
- l_pos: true
  l_idx: 1
  r_pos: true
  r_idx: 2
  r_shift: 2
1887:
- l_pos: false
  l_idx: 0
  r_pos: true
  r_idx: 0
  r_shift: 4
- l_pos: false
  l_idx: 0
  r_pos: true
  r_idx: 1
  r_shift: 2
- l_pos: false
  l_idx: 0
  r_pos: true
  r_idx: 2
  r_shift: 5
1889:
- l_pos: false
  l_idx: 0
  r_pos: true
  r_idx: 0
  r_shift: 4
- l_pos: false
  l_idx: 0
  r_pos: true
  r_idx: 1
  r_shift: 2
- l_pos: true
  l_idx: 0
  r_pos: true
  r_idx: 2
  r_shift: 5
1891:
- l_pos: false
  l_idx: 0
  r_pos: true
  r_idx: 0
  r_shift: 4
- l_pos: false
  l_idx: 1
  r_pos: true
  r_idx: 1
  r_shift: 6
- l_pos: true
  l_idx: 0
  r_pos: true
  r_idx: 2
  r_shift: 1
1893:
- l_pos: true
  l_idx: 0
  r_pos: true
  r_idx: 0
  r_shift: 2
- l_pos: false
  l_idx: 1
  r_pos: true
  r_idx: 0
  r_shift: 6
- l_pos: true
  l_idx: 1
  r_pos: true
  r_idx: 2
  r_shift: 5
1895:
- l_pos: true
  l_idx: 0
  r_pos: true
  r_idx: 0
  r_shift: 3
- l_pos: false
  l_idx: 1
  r_pos: true
  r_idx: 0
  r_shift: 7
- l_pos: false
  l_idx: 1
  r_pos: true
  r_idx: 2
  r_shift: 4
1897:
- l_pos: false
  l_idx: 0
  r_pos: true
  r_idx: 0
  r_shift: 3
- l_pos: true
  l_idx: 1
  r_pos: true
  r_idx: 1
  r_shift: 4
- l_pos: false
  l_idx: 1
  r_pos: true
  r_idx: 2
  r_shift: 4
1899:
- l_pos: false
  l_idx: 0
  r_pos: true
  r_idx: 0
  r_shift: 4
- l_pos: false
  l_idx: 0
  r_pos: true
  r_idx: 1
  r_shift: 3
- l_pos: false
  l_idx: 0
  r_pos: true
  r_idx: 2
  r_shift: 2
- l_pos: false
  l_idx: 0
  r_pos: true
  r_idx: 3
  r_shift: 2
1901:
- l_pos: false
  l_idx: 0
  r_pos: true
  r_idx: 0
  r_shift: 4
- l_pos: false
  l_idx: 0
  r_pos: true
  r_idx: 1
  r_shift: 5
- l_pos: false
  l_idx: 1
  r_pos: true
  r_idx: 2
  r_shift: 2
1903:
- l_pos: false
  l_idx: 0
  r_pos: true
  r_idx: 0
  r_shift: 4
- l_pos: false
  l_idx: 0
  r_pos: true
  r_idx: 1
  r_shift: 3
- l_pos: false
  l_idx: 0
  r_pos: true
  r_idx: 2
  r_shift: 4
1905:
- l_pos: false
  l_idx: 0
  r_pos: true
  r_idx: 0
  r_shift: 4
- l_pos: false
  l_idx: 1
  r_pos: true
  r_idx: 1
  r_shift: 7
1907:
- l_pos: false
  l_idx: 0
  r_pos: true
  r_idx: 0
  r_shift: 4
- l_pos: true
  l_idx: 0
  r_pos: true
  r_idx: 1
  r_shift: 6
- l_pos: false
  l_idx: 1
  r_pos: true
  r_idx: 2
  r_shift: 1
1909:
- l_pos: false
  l_idx: 0
  r_pos: true
  r_idx: 0
  r_shift: 4
- l_pos: true
  l_idx: 0
  r_pos: true
  r_idx: 1
  r_shift: 5
- l_pos: false
  l_idx: 1
  r_pos: true
  r_idx: 2
  r_shift: 2
1911:
- l_pos: false
  l_idx: 0
  r_pos: true
  r_idx: 0
  r_shift: 4
- l_pos: false
  l_idx: 0
  r_pos: true
  r_idx: 1
  r_shift: 4
- l_pos: false
  l_idx: 0
  r_pos: true
  r_idx: 2
  r_shift: 3
1913:
- l_pos: false
  l_idx: 0
  r_pos: true
  r_idx: 0
  r_shift: 4
- l_pos: false
  l_idx: 0
  r_pos: true
  r_idx: 1
  r_shift: 4
- l_pos: true
  l_idx: 0
  r_pos: true
  r_idx: 2
  r_shift: 3
1915:
- l_pos: false
  l_idx: 0
  r_pos: true
  r_idx: 0
  r_shift: 4
- l_pos: false
  l_idx: 0
  r_pos: true
  r_idx: 1
  r_shift: 5
- l_pos: false
  l_idx: 0
  r_pos: true
  r_idx: 2
  r_shift: 2
1917:
- l_pos: false
  l_idx: 0
  r_pos: true
  r_idx: 0
  r_shift: 4
- l_pos: false
  l_idx: 0
  r_pos: true
  r_idx: 1
  r_shift: 5
- l_pos: true
  l_idx: 0
  r_pos: true
  r_idx: 2
  r_shift: 2
1919:
- l_pos: false
  l_idx: 0
  r_pos: true
  r_idx: 0
  r_shift: 4
- l_pos: false
  l_idx: 0
  r_pos: true
  r_idx: 1
  r_shift: 7
".
Definition text_31 : string := "1921:
- l_pos: false
  l_idx: 0
  r_pos: true
  r_idx: 0
  r_shift: 4
- l_pos: true
  l_idx: 0
  r_pos: true
  r_idx: 1
  r_shift: 7
1923:
- l_pos: false
  l_idx: 0
  r_pos: true
  r_idx: 0
  r_shift: 4
- l_pos: true
  l_idx: 0
  r_pos: true
  r_idx: 1
  r_shift: 5
- l_pos: false
  l_idx: 0
  r_pos: true
  r_idx: 2
  r_shift: 2
1925:
- l_pos: false
  l_idx: 0
  r_pos: true
  r_idx: 0
  r_shift: 4
- l_pos: true
  l_idx: 0
  r_pos: true
  r_idx: 1
  r_shift: 5
- l_pos: true
  l_idx: 0
  r_pos: true
  r_idx: 2
  r_shift: 2
1927:
- l_pos: false
  l_idx: 0
  r_pos: true
  r_idx: 0
  r_shift: 4
- l_pos: true
  l_idx: 0
  r_pos: true
  r_idx: 1
  r_shift: 4
- l_pos: false
  l_idx: 0
  r_pos: true
  r_idx: 2
  r_shift: 3
1929:
- l_pos: false
  l_idx: 0
  r_pos: true
  r_idx: 0
  r_shift: 4
- l_pos: true
  l_idx: 0
  r_pos: true
  r_idx: 1
  r_shift: 4
- l_pos: true
  l_idx: 0
  r_pos: true
  r_idx: 2
  r_shift: 3
1931:
- l_pos: false
  l_idx: 0
  r_pos: true
  r_idx: 0
  r_shift: 4
- l_pos: false
  l_idx: 0
  r_pos: true
  r_idx: 1
  r_shift: 5
- l_pos: true
  l_idx: 1
  r_pos: true
  r_idx: 2
  r_shift: 2
1933:
- l_pos: false
  l_idx: 0
  r_pos: true
  r_idx: 0
  r_shift: 4
- l_pos: false
  l_idx: 0
  r_pos: true
  r_idx: 1
  r_shift: 6
- l_pos: true
  l_idx: 1
  r_pos: true
  r_idx: 2
  r_shift: 1
1935:
- l_pos: false
  l_idx: 0
  r_pos: true
  r_idx: 0
  r_shift: 4
- l_pos: true
  l_idx: 1
  r_pos: true
  r_idx: 1
  r_shift: 7
1937:
- l_pos: false
  l_idx: 0
  r_pos: true
  r_idx: 0
  r_shift: 4
- l_pos: true
  l_idx: 0
  r_pos: true
  r_idx: 1
  r_shift: 3
- l_pos: true
  l_idx: 0
  r_pos: true
  r_idx: 2
  r_shift: 4
1939:
- l_pos: false
  l_idx: 0
  r_pos: true
  r_idx: 0
  r_shift: 4
- l_pos: true
  l_idx: 0
  r_pos: true
  r_idx: 1
  r_shift: 5
- l_pos: true
  l_idx: 1
  r_pos: true
  r_idx: 2
  r_shift: 2
1941:
- l_pos: false
  l_idx: 0
  r_pos: true
  r_idx: 0
  r_shift: 4
- l_pos: true
  l_idx: 0
  r_pos: true
  r_idx: 1
  r_shift: 3
- l_pos: true
  l_idx: 0
  r_pos: true
  r_idx: 2
  r_shift: 2
- l_pos: true
  l_idx: 0
  r_pos: true
  r_idx: 3
  r_shift: 2
1943:
- l_pos: false
  l_idx: 0
  r_pos: true
  r_idx: 0
  r_shift: 3
- l_pos: false
  l_idx: 1
  r_pos: true
  r_idx: 0
  r_shift: 7
- l_pos: true
  l_idx: 1
  r_pos: true
  r_idx: 2
  r_shift: 4
1945:
- l_pos: false
  l_idx: 0
  r_pos: true
  r_idx: 0
  r_shift: 5
- l_pos: false
  l_idx: 0
  r_pos: true
  r_idx: 1
  r_shift: 3
- l_pos: false
  l_idx: 1
  r_pos: true
  r_idx: 2
  r_shift: 3
1947:
- l_pos: true
  l_idx: 0
  r_pos: true
  r_idx: 0
  r_shift: 5
- l_pos: false
  l_idx: 1
  r_pos: true
  r_idx: 1
  r_shift: 4
- l_pos: false
  l_idx: 1
  r_pos: true
  r_idx: 2
  r_shift: 2
1949:
- l_pos: false
  l_idx: 0
  r_pos: true
  r_idx: 0
  r_shift: 4
- l_pos: true
  l_idx: 1
  r_pos: true
  r_idx: 1
  r_shift: 6
- l_pos: false
  l_idx: 0
  r_pos: true
  r_idx: 2
  r_shift: 1
1951:
- l_pos: false
  l_idx: 0
  r_pos: true
  r_idx: 0
  r_shift: 4
- l_pos: true
  l_idx: 0
  r_pos: true
  r_idx: 1
  r_shift: 2
- l_pos: false
  l_idx: 0
  r_pos: true
  r_idx: 2
  r_shift: 5
1953:
- l_pos: false
  l_idx: 0
  r_pos: true
  r_idx: 0
  r_shift: 5
- l_pos: false
  l_idx: 1
  r_pos: true
  r_idx: 1
  r_shift: 6
1955:
- l_pos: true
  l_idx: 0
  r_pos: true
  r_idx: 0
  r_shift: 1
- l_pos: false
  l_idx: 1
  r_pos: true
  r_idx: 0
  r_shift: 6
- l_pos: true
  l_idx: 1
  r_pos: true
  r_idx: 2
  r_shift: 5
1957:
- l_pos: false
  l_idx: 0
  r_pos: true
  r_idx: 0
  r_shift: 5
- l_pos: true
  l_idx: 0
  r_pos: true
  r_idx: 1
  r_shift: 4
- l_pos: false
  l_idx: 1
  r_pos: true
  r_idx: 2
  r_shift: 2
1959:
- l_pos: false
  l_idx: 0
  r_pos: true
  r_idx: 0
  r_shift: 4
- l_pos: true
  l_idx: 0
  r_pos: true
  r_idx: 1
  r_shift: 2
- l_pos: true
  l_idx: 0
  r_pos: true
  r_idx: 2
  r_shift: 2
- l_pos: false
  l_idx: 0
  r_pos: true
  r_idx: 3
  r_shift: 3
1961:
- l_pos: false
  l_idx: 0
  r_pos: true
  r_idx: 0
  r_shift: 5
- l_pos: true
  l_idx: 0
  r_pos: true
  r_idx: 1
  r_shift: 3
- l_pos: false
  l_idx: 1
  r_pos: true
  r_idx: 2
  r_shift: 3
1963:
- l_pos: true
  l_idx: 0
  r_pos: true
  r_idx: 0
  r_shift: 2
- l_pos: false
  l_idx: 1
  r_pos: true
  r_idx: 0
  r_shift: 7
- l_pos: false
  l_idx: 1
  r_pos: true
  r_idx: 2
  r_shift: 4
1965:
- l_pos: false
  l_idx: 0
  r_pos: true
  r_idx: 0
  r_shift: 4
- l_pos: true
  l_idx: 1
  r_pos: true
  r_idx: 1
  r_shift: 5
- l_pos: false
  l_idx: 1
  r_pos: true
  r_idx: 2
  r_shift: 2
1967:
- l_pos: false
  l_idx: 0
  r_pos: true
  r_idx: 0
  r_shift: 5
- l_pos: false
  l_idx: 0
  r_pos: true
  r_idx: 1
  r_shift: 2
- l_pos: false
  l_idx: 0
  r_pos: true
  r_idx: 2
  r_shift: 4
1969:
- l_pos: false
  l_idx: 0
  r_pos: true
  r_idx: 0
  r_shift: 5
- l_pos: false
  l_idx: 0
  r_pos: true
  r_idx: 1
  r_shift: 2
- l_pos: true
  l_idx: 0
  r_pos: true
  r_idx: 2
  r_shift: 4
1971:
- l_pos: false
  l_idx: 0
  r_pos: true
  r_idx: 0
  r_shift: 5
- l_pos: false
  l_idx: 0
  r_pos: true
  r_idx: 1
  r_shift: 2
- l_pos: true
  l_idx: 0
  r_pos: true
  r_idx: 2
  r_shift: 2
- l_pos: false
  l_idx: 0
  r_pos: true
  r_idx: 3
  r_shift: 2
1973:
- l_pos: true
  l_idx: 0
  r_pos: true
  r_idx: 0
  r_shift: 2
- l_pos: false
  l_idx: 1
  r_pos: true
  r_idx: 0
  r_shift: 7
- l_pos: true
  l_idx: 1
  r_pos: true
  r_idx: 2
  r_shift: 4
1975:
- l_pos: false
  l_idx: 0
  r_pos: true
  r_idx: 0
  r_shift: 5
- l_pos: false
  l_idx: 0
  r_pos: true
  r_idx: 1
  r_shift: 3
- l_pos: false
  l_idx: 0
  r_pos: true
  r_idx: 2
  r_shift: 3
1977:
- l_pos: false
  l_idx: 0
  r_pos: true
  r_idx: 0
  r_shift: 5
- l_pos: false
  l_idx: 0
  r_pos: true
  r_idx: 1
  r_shift: 3
- l_pos: true
  l_idx: 0
  r_pos: true
  r_idx: 2
  r_shift: 3
1979:
- l_pos: false
  l_idx: 0
  r_pos: true
  r_idx: 0
  r_shift: 5
- l_pos: false
  l_idx: 0
  r_pos: true
  r_idx: 1
  r_shift: 4
- l_pos: false
  l_idx: 0
  r_pos: true
  r_idx: 2
  r_shift: 2
1981:
- l_pos: false
  l_idx: 0
  r_pos: true
  r_idx: 0
  r_shift: 5
- l_pos: false
  l_idx: 0
  r_pos: true
  r_idx: 1
  r_shift: 4
- l_pos: true
  l_idx: 0
  r_pos: true
  r_idx: 2
  r_shift: 2
1983:
- l_pos: false
  l_idx: 0
  r_pos: true
  r_idx: 0
  r_shift: 5
- l_pos: false
  l_idx: 0
  r_pos: true
  r_idx: 1
  r_shift: 6
".
Definition text_32 : string := "1985:
- l_pos: false
  l_idx: 0
  r_pos: true
  r_idx: 0
  r_shift: 5
- l_pos: true
  l_idx: 0
  r_pos: true
  r_idx: 1
  r_shift: 6
1987:
- l_pos: false
  l_idx: 0
  r_pos: true
  r_idx: 0
  r_shift: 5
- l_pos: true
  l_idx: 0
  r_pos: true
  r_idx: 1
  r_shift: 4
- l_pos: false
  l_idx: 0
  r_pos: true
  r_idx: 2
  r_shift: 2
1989:
- l_pos: false
  l_idx: 0
  r_pos: true
  r_idx: 0
  r_shift: 5
- l_pos: true
  l_idx: 0
  r_pos: true
  r_idx: 1
  r_shift: 4
- l_pos: true
  l_idx: 0
  r_pos: true
  r_idx: 2
  r_shift: 2
1991:
- l_pos: false
  l_idx: 0
  r_pos: true
  r_idx: 0
  r_shift: 5
- l_pos: true
  l_idx: 0
  r_pos: true
  r_idx: 1
  r_shift: 3
- l_pos: false
  l_idx: 0
  r_pos: true
  r_idx: 2
  r_shift: 3
1993:
- l_pos: false
  l_idx: 0
  r_pos: true
  r_idx: 0
  r_shift: 5
- l_pos: true
  l_idx: 0
  r_pos: true
  r_idx: 1
  r_shift: 3
- l_pos: true
  l_idx: 0
  r_pos: true
  r_idx: 2
  r_shift: 3
1995:
- l_pos: false
  l_idx: 0
  r_pos: true
  r_idx: 0
  r_shift: 4
- l_pos: true
  l_idx: 1
  r_pos: true
  r_idx: 1
  r_shift: 5
- l_pos: true
  l_idx: 1
  r_pos: true
  r_idx: 2
  r_shift: 2
1997:
- l_pos: true
  l_idx: 0
  r_pos: true
  r_idx: 0
  r_shift: 1
- l_pos: false
  l_idx: 1
  r_pos: true
  r_idx: 0
  r_shift: 7
- l_pos: false
  l_idx: 1
  r_pos: true
  r_idx: 2
  r_shift: 4
1999:
- l_pos: false
  l_idx: 0
  r_pos: true
  r_idx: 0
  r_shift: 5
- l_pos: true
  l_idx: 0
  r_pos: true
  r_idx: 1
  r_shift: 2
- l_pos: false
  l_idx: 0
  r_pos: true
  r_idx: 2
  r_shift: 4
2001:
- l_pos: false
  l_idx: 0
  r_pos: true
  r_idx: 0
  r_shift: 5
- l_pos: true
  l_idx: 0
  r_pos: true
  r_idx: 1
  r_shift: 2
- l_pos: true
  l_idx: 0
  r_pos: true
  r_idx: 2
  r_shift: 4
2003:
- l_pos: true
  l_idx: 0
  r_pos: true
  r_idx: 0
  r_shift: 1
- l_pos: false
  l_idx: 1
  r_pos: true
  r_idx: 0
  r_shift: 7
- l_pos: true
  l_idx: 1
  r_pos: true
  r_idx: 2
  r_shift: 4
2005:
- l_pos: false
  l_idx: 0
  r_pos: true
  r_idx: 0
  r_shift: 5
- l_pos: true
  l_idx: 0
  r_pos: true
  r_idx: 1
  r_shift: 2
- l_pos: true
  l_idx: 0
  r_pos: true
  r_idx: 2
  r_shift: 2
- l_pos: true
  l_idx: 0
  r_pos: true
  r_idx: 3
  r_shift: 2
2007:
- l_pos: false
  l_idx: 0
  r_pos: true
  r_idx: 0
  r_shift: 6
- l_pos: false
  l_idx: 0
  r_pos: true
  r_idx: 1
  r_shift: 2
- l_pos: false
  l_idx: 0
  r_pos: true
  r_idx: 2
  r_shift: 3
2009:
- l_pos: false
  l_idx: 0
  r_pos: true
  r_idx: 0
  r_shift: 6
- l_pos: false
  l_idx: 0
  r_pos: true
  r_idx: 1
  r_shift: 2
- l_pos: true
  l_idx: 0
  r_pos: true
  r_idx: 2
  r_shift: 3
2011:
- l_pos: false
  l_idx: 0
  r_pos: true
  r_idx: 0
  r_shift: 6
- l_pos: false
  l_idx: 0
  r_pos: true
  r_idx: 1
  r_shift: 3
- l_pos: false
  l_idx: 0
  r_pos: true
  r_idx: 2
  r_shift: 2
2013:
- l_pos: false
  l_idx: 0
  r_pos: true
  r_idx: 0
  r_shift: 6
- l_pos: false
  l_idx: 0
  r_pos: true
  r_idx: 1
  r_shift: 3
- l_pos: true
  l_idx: 0
  r_pos: true
  r_idx: 2
  r_shift: 2
2015:
- l_pos: false
  l_idx: 0
  r_pos: true
  r_idx: 0
  r_shift: 6
- l_pos: false
  l_idx: 0
  r_pos: true
  r_idx: 1
  r_shift: 5
2017:
- l_pos: false
  l_idx: 0
  r_pos: true
  r_idx: 0
  r_shift: 6
- l_pos: true
  l_idx: 0
  r_pos: true
  r_idx: 1
  r_shift: 5
2019:
- l_pos: false
  l_idx: 0
  r_pos: true
  r_idx: 0
  r_shift: 6
- l_pos: true
  l_idx: 0
  r_pos: true
  r_idx: 1
  r_shift: 3
- l_pos: false
  l_idx: 0
  r_pos: true
  r_idx: 2
  r_shift: 2
2021:
- l_pos: false
  l_idx: 0
  r_pos: true
  r_idx: 0
  r_shift: 6
- l_pos: true
  l_idx: 0
  r_pos: true
  r_idx: 1
  r_shift: 3
- l_pos: true
  l_idx: 0
  r_pos: true
  r_idx: 2
  r_shift: 2
2023:
- l_pos: false
  l_idx: 0
  r_pos: true
  r_idx: 0
  r_shift: 6
- l_pos: true
  l_idx: 0
  r_pos: true
  r_idx: 1
  r_shift: 2
- l_pos: false
  l_idx: 0
  r_pos: true
  r_idx: 2
  r_shift: 3
2025:
- l_pos: false
  l_idx: 0
  r_pos: true
  r_idx: 0
  r_shift: 6
- l_pos: true
  l_idx: 0
  r_pos: true
  r_idx: 1
  r_shift: 2
- l_pos: true
  l_idx: 0
  r_pos: true
  r_idx: 2
  r_shift: 3
2027:
- l_pos: false
  l_idx: 0
  r_pos: true
  r_idx: 0
  r_shift: 7
- l_pos: false
  l_idx: 0
  r_pos: true
  r_idx: 1
  r_shift: 2
- l_pos: false
  l_idx: 0
  r_pos: true
  r_idx: 2
  r_shift: 2
2029:
- l_pos: false
  l_idx: 0
  r_pos: true
  r_idx: 0
  r_shift: 7
- l_pos: false
  l_idx: 0
  r_pos: true
  r_idx: 1
  r_shift: 2
- l_pos: true
  l_idx: 0
  r_pos: true
  r_idx: 2
  r_shift: 2
2031:
- l_pos: false
  l_idx: 0
  r_pos: true
  r_idx: 0
  r_shift: 7
- l_pos: false
  l_idx: 0
  r_pos: true
  r_idx: 1
  r_shift: 4
2033:
- l_pos: false
  l_idx: 0
  r_pos: true
  r_idx: 0
  r_shift: 7
- l_pos: true
  l_idx: 0
  r_pos: true
  r_idx: 1
  r_shift: 4
2035:
- l_pos: false
  l_idx: 0
  r_pos: true
  r_idx: 0
  r_shift: 7
- l_pos: true
  l_idx: 0
  r_pos: true
  r_idx: 1
  r_shift: 2
- l_pos: false
  l_idx: 0
  r_pos: true
  r_idx: 2
  r_shift: 2
2037:
- l_pos: false
  l_idx: 0
  r_pos: true
  r_idx: 0
  r_shift: 7
- l_pos: true
  l_idx: 0
  r_pos: true
  r_idx: 1
  r_shift: 2
- l_pos: true
  l_idx: 0
  r_pos: true
  r_idx: 2
  r_shift: 2
2039:
- l_pos: false
  l_idx: 0
  r_pos: true
  r_idx: 0
  r_shift: 8
- l_pos: false
  l_idx: 0
  r_pos: true
  r_idx: 1
  r_shift: 3
2041:
- l_pos: false
  l_idx: 0
  r_pos: true
  r_idx: 0
  r_shift: 8
- l_pos: true
  l_idx: 0
  r_pos: true
  r_idx: 1
  r_shift: 3
2043:
- l_pos: false
  l_idx: 0
  r_pos: true
  r_idx: 0
  r_shift: 9
- l_pos: false
  l_idx: 0
  r_pos: true
  r_idx: 1
  r_shift: 2
2045:
- l_pos: false
  l_idx: 0
  r_pos: true
  r_idx: 0
  r_shift: 9
- l_pos: true
  l_idx: 0
  r_pos: true
  r_idx: 1
  r_shift: 2
2047:
- l_pos: false
  l_idx: 0
  r_pos: true
  r_idx: 0
  r_shift: 11
".
Definition text_33 : string := "2049:
- l_pos: true
  l_idx: 0
  r_pos: true
  r_idx: 0
  r_shift: 11
2051:
- l_pos: true
  l_idx: 0
  r_pos: true
  r_idx: 0
  r_shift: 9
- l_pos: false
  l_idx: 0
  r_pos: true
  r_idx: 1
  r_shift: 2
2053:
- l_pos: true
  l_idx: 0
  r_pos: true
  r_idx: 0
  r_shift: 9
- l_pos: true
  l_idx: 0
  r_pos: true
  r_idx: 1
  r_shift: 2
2055:
- l_pos: true
  l_idx: 0
  r_pos: true
  r_idx: 0
  r_shift: 8
- l_pos: false
  l_idx: 0
  r_pos: true
  r_idx: 1
  r_shift: 3
2057:
- l_pos: true
  l_idx: 0
  r_pos: true
  r_idx: 0
  r_shift: 8
- l_pos: true
  l_idx: 0
  r_pos: true
  r_idx: 1
  r_shift: 3
2059:
- l_pos: true
  l_idx: 0
  r_pos: true
  r_idx: 0
  r_shift: 7
- l_pos: false
  l_idx: 0
  r_pos: true
  r_idx: 1
  r_shift: 2
- l_pos: false
  l_idx: 0
  r_pos: true
  r_idx: 2
  r_shift: 2
2061:
- l_pos: true
  l_idx: 0
  r_pos: true
  r_idx: 0
  r_shift: 7
- l_pos: false
  l_idx: 0
  r_pos: true
  r_idx: 1
  r_shift: 2
- l_pos: true
  l_idx: 0
  r_pos: true
  r_idx: 2
  r_shift: 2
2063:
- l_pos: true
  l_idx: 0
  r_pos: true
  r_idx: 0
  r_shift: 7
- l_pos: false
  l_idx: 0
  r_pos: true
  r_idx: 1
  r_shift: 4
2065:
- l_pos: true
  l_idx: 0
  r_pos: true
  r_idx: 0
  r_shift: 7
- l_pos: true
  l_idx: 0
  r_pos: true
  r_idx: 1
  r_shift: 4
2067:
- l_pos: true
  l_idx: 0
  r_pos: true
  r_idx: 0
  r_shift: 7
- l_pos: true
  l_idx: 0
  r_pos: true
  r_idx: 1
  r_shift: 2
- l_pos: false
  l_idx: 0
  r_pos: true
  r_idx: 2
  r_shift: 2
2069:
- l_pos: true
  l_idx: 0
  r_pos: true
  r_idx: 0
  r_shift: 7
- l_pos: true
  l_idx: 0
  r_pos: true
  r_idx: 1
  r_shift: 2
- l_pos: true
  l_idx: 0
  r_pos: true
  r_idx: 2
  r_shift: 2
2071:
- l_pos: true
  l_idx: 0
  r_pos: true
  r_idx: 0
  r_shift: 6
- l_pos: false
  l_idx: 0
  r_pos: true
  r_idx: 1
  r_shift: 2
- l_pos: false
  l_idx: 0
  r_pos: true
  r_idx: 2
  r_shift: 3
2073:
- l_pos: true
  l_idx: 0
  r_pos: true
  r_idx: 0
  r_shift: 6
- l_pos: false
  l_idx: 0
  r_pos: true
  r_idx: 1
  r_shift: 2
- l_pos: true
  l_idx: 0
  r_pos: true
  r_idx: 2
  r_shift: 3
2075:
- l_pos: true
  l_idx: 0
  r_pos: true
  r_idx: 0
  r_shift: 6
- l_pos: false
  l_idx: 0
  r_pos: true
  r_idx: 1
  r_shift: 3
- l_pos: false
  l_idx: 0
  r_pos: true
  r_idx: 2
  r_shift: 2
2077:
- l_pos: true
  l_idx: 0
  r_pos: true
  r_idx: 0
  r_shift: 6
- l_pos: false
  l_idx: 0
  r_pos: true
  r_idx: 1
  r_shift: 3
- l_pos: true
  l_idx: 0
  r_pos: true
  r_idx: 2
  r_shift: 2
2079:
- l_pos: true
  l_idx: 0
  r_pos: true
  r_idx: 0
  r_shift: 6
- l_pos: false
  l_idx: 0
  r_pos: true
  r_idx: 1
  r_shift: 5
2081:
- l_pos: true
  l_idx: 0
  r_pos: true
  r_idx: 0
  r_shift: 6
- l_pos: true
  l_idx: 0
  r_pos: true
  r_idx: 1
  r_shift: 5
2083:
- l_pos: true
  l_idx: 0
  r_pos: true
  r_idx: 0
  r_shift: 6
- l_pos: true
  l_idx: 0
  r_pos: true
  r_idx: 1
  r_shift: 3
- l_pos: false
  l_idx: 0
  r_pos: true
  r_idx: 2
  r_shift: 2
2085:
- l_pos: true
  l_idx: 0
  r_pos: true
  r_idx: 0
  r_shift: 6
- l_pos: true
  l_idx: 0
  r_pos: true
  r_idx: 1
  r_shift: 3
- l_pos: true
  l_idx: 0
  r_pos: true
  r_idx: 2
  r_shift: 2
2087:
- l_pos: true
  l_idx: 0
  r_pos: true
  r_idx: 0
  r_shift: 6
- l_pos: true
  l_idx: 0
  r_pos: true
  r_idx: 1
  r_shift: 2
- l_pos: false
  l_idx: 0
  r_pos: true
  r_idx: 2
  r_shift: 3
2089:
- l_pos: true
  l_idx: 0
  r_pos: true
  r_idx: 0
  r_shift: 6
- l_pos: true
  l_idx: 0
  r_pos: true
  r_idx: 1
  r_shift: 2
- l_pos: true
  l_idx: 0
  r_pos: true
  r_idx: 2
  r_shift: 3
2091:
- l_pos: true
  l_idx: 0
  r_pos: true
  r_idx: 0
  r_shift: 4
- l_pos: false
  l_idx: 1
  r_pos: true
  r_idx: 1
  r_shift: 5
- l_pos: false
  l_idx: 1
  r_pos: true
  r_idx: 2
  r_shift: 2
2093:
- l_pos: true
  l_idx: 0
  r_pos: true
  r_idx: 0
  r_shift: 1
- l_pos: true
  l_idx: 1
  r_pos: true
  r_idx: 0
  r_shift: 7
- l_pos: false
  l_idx: 1
  r_pos: true
  r_idx: 2
  r_shift: 4
2095:
- l_pos: true
  l_idx: 0
  r_pos: true
  r_idx: 0
  r_shift: 5
- l_pos: false
  l_idx: 0
  r_pos: true
  r_idx: 1
  r_shift: 2
- l_pos: false
  l_idx: 0
  r_pos: true
  r_idx: 2
  r_shift: 4
2097:
- l_pos: true
  l_idx: 0
  r_pos: true
  r_idx: 0
  r_shift: 5
- l_pos: false
  l_idx: 0
  r_pos: true
  r_idx: 1
  r_shift: 2
- l_pos: true
  l_idx: 0
  r_pos: true
  r_idx: 2
  r_shift: 4
2099:
- l_pos: true
  l_idx: 0
  r_pos: true
  r_idx: 0
  r_shift: 1
- l_pos: true
  l_idx: 1
  r_pos: true
  r_idx: 0
  r_shift: 7
- l_pos: true
  l_idx: 1
  r_pos: true
  r_idx: 2
  r_shift: 4
2101:
- l_pos: true
  l_idx: 0
  r_pos: true
  r_idx: 0
  r_shift: 5
- l_pos: false
  l_idx: 0
  r_pos: true
  r_idx: 1
  r_shift: 2
- l_pos: true
  l_idx: 0
  r_pos: true
  r_idx: 2
  r_shift: 2
- l_pos: true
  l_idx: 0
  r_pos: true
  r_idx: 3
  r_shift: 2
2103:
- l_pos: true
  l_idx: 0
  r_pos: true
  r_idx: 0
  r_shift: 5
- l_pos: false
  l_idx: 0
  r_pos: true
  r_idx: 1
  r_shift: 3
- l_pos: false
  l_idx: 0
  r_pos: true
  r_idx: 2
  r_shift: 3
2105:
- l_pos: true
  l_idx: 0
  r_pos: true
  r_idx: 0
  r_shift: 5
- l_pos: false
  l_idx: 0
  r_pos: true
  r_idx: 1
  r_shift: 3
- l_pos: true
  l_idx: 0
  r_pos: true
  r_idx: 2
  r_shift: 3
2107:
- l_pos: true
  l_idx: 0
  r_pos: true
  r_idx: 0
  r_shift: 5
- l_pos: false
  l_idx: 0
  r_pos: true
  r_idx: 1
  r_shift: 4
- l_pos: false
  l_idx: 0
  r_pos: true
  r_idx: 2
  r_shift: 2
2109:
- l_pos: true
  l_idx: 0
  r_pos: true
  r_idx: 0
  r_shift: 5
- l_pos: false
  l_idx: 0
  r_pos: true
  r_idx: 1
  r_shift: 4
- l_pos: true
  l_idx: 0
  r_pos: true
  r_idx: 2
  r_shift: 2
2111:
- l_pos: true
  l_idx: 0
  r_pos: true
  r_idx: 0
  r_shift: 5
- l_pos: false
  l_idx: 0
  r_pos: true
  r_idx: 1
  r_shift: 6
".
Definition text_34 : string := "2113:
- l_pos: true
  l_idx: 0
  r_pos: true
  r_idx: 0
  r_shift: 5
- l_pos: true
  l_idx: 0
  r_pos: true
  r_idx: 1
  r_shift: 6
2115:
- l_pos: true
  l_idx: 0
  r_pos: true
  r_idx: 0
  r_shift: 5
- l_pos: true
  l_idx: 0
  r_pos: true
  r_idx: 1
  r_shift: 4
- l_pos: false
  l_idx: 0
  r_pos: true
  r_idx: 2
  r_shift: 2
2117:
- l_pos: true
  l_idx: 0
  r_pos: true
  r_idx: 0
  r_shift: 5
- l_pos: true
  l_idx: 0
  r_pos: true
  r_idx: 1
  r_shift: 4
- l_pos: true
  l_idx: 0
  r_pos: true
  r_idx: 2
  r_shift: 2
2119:
- l_pos: true
  l_idx: 0
  r_pos: true
  r_idx: 0
  r_shift: 5
- l_pos: true
  l_idx: 0
  r_pos: true
  r_idx: 1
  r_shift: 3
- l_pos: false
  l_idx: 0
  r_pos: true
  r_idx: 2
  r_shift: 3
2121:
- l_pos: true
  l_idx: 0
  r_pos: true
  r_idx: 0
  r_shift: 5
- l_pos: true
  l_idx: 0
  r_pos: true
  r_idx: 1
  r_shift: 3
- l_pos: true
  l_idx: 0
  r_pos: true
  r_idx: 2
  r_shift: 3
2123:
- l_pos: true
  l_idx: 0
  r_pos: true
  r_idx: 0
  r_shift: 2
- l_pos: true
  l_idx: 1
  r_pos: true
  r_idx: 0
  r_shift: 7
- l_pos: false
  l_idx: 1
  r_pos: true
  r_idx: 2
  r_shift: 4
2125:
- l_pos: true
  l_idx: 0
  r_pos: true
  r_idx: 0
  r_shift: 4
- l_pos: false
  l_idx: 1
  r_pos: true
  r_idx: 1
  r_shift: 5
- l_pos: true
  l_idx: 1
  r_pos: true
  r_idx: 2
  r_shift: 2
2127:
- l_pos: true
  l_idx: 0
  r_pos: true
  r_idx: 0
  r_shift: 5
- l_pos: true
  l_idx: 0
  r_pos: true
  r_idx: 1
  r_shift: 2
- l_pos: false
  l_idx: 0
  r_pos: true
  r_idx: 2
  r_shift: 4
2129:
- l_pos: true
  l_idx: 0
  r_pos: true
  r_idx: 0
  r_shift: 5
- l_pos: true
  l_idx: 0
  r_pos: true
  r_idx: 1
  r_shift: 2
- l_pos: true
  l_idx: 0
  r_pos: true
  r_idx: 2
  r_shift: 4
2131:
- l_pos: true
  l_idx: 0
  r_pos: true
  r_idx: 0
  r_shift: 5
- l_pos: true
  l_idx: 0
  r_pos: true
  r_idx: 1
  r_shift: 2
- l_pos: true
  l_idx: 0
  r_pos: true
  r_idx: 2
  r_shift: 2
- l_pos: false
  l_idx: 0
  r_pos: true
  r_idx: 3
  r_shift: 2
2133:
- l_pos: true
  l_idx: 0
  r_pos: true
  r_idx: 0
  r_shift: 2
- l_pos: true
  l_idx: 1
  r_pos: true
  r_idx: 0
  r_shift: 7
- l_pos: true
  l_idx: 1
  r_pos: true
  r_idx: 2
  r_shift: 4
2135:
- l_pos: true
  l_idx: 0
  r_pos: true
  r_idx: 0
  r_shift: 4
- l_pos: false
  l_idx: 0
  r_pos: true
  r_idx: 1
  r_shift: 2
- l_pos: false
  l_idx: 0
  r_pos: true
  r_idx: 2
  r_shift: 2
- l_pos: false
  l_idx: 0
  r_pos: true
  r_idx: 3
  r_shift: 3
2137:
- l_pos: true
  l_idx: 0
  r_pos: true
  r_idx: 0
  r_shift: 5
- l_pos: false
  l_idx: 0
  r_pos: true
  r_idx: 1
  r_shift: 3
- l_pos: true
  l_idx: 1
  r_pos: true
  r_idx: 2
  r_shift: 3
2139:
- l_pos: false
  l_idx: 0
  r_pos: true
  r_idx: 0
  r_shift: 5
- l_pos: true
  l_idx: 1
  r_pos: true
  r_idx: 1
  r_shift: 4
- l_pos: true
  l_idx: 1
  r_pos: true
  r_idx: 2
  r_shift: 2
2141:
- l_pos: true
  l_idx: 0
  r_pos: true
  r_idx: 0
  r_shift: 4
- l_pos: false
  l_idx: 1
  r_pos: true
  r_idx: 1
  r_shift: 6
- l_pos: false
  l_idx: 0
  r_pos: true
  r_idx: 2
  r_shift: 1
2143:
- l_pos: true
  l_idx: 0
  r_pos: true
  r_idx: 0
  r_shift: 4
- l_pos: false
  l_idx: 0
  r_pos: true
  r_idx: 1
  r_shift: 2
- l_pos: false
  l_idx: 0
  r_pos: true
  r_idx: 2
  r_shift: 5
2145:
- l_pos: true
  l_idx: 0
  r_pos: true
  r_idx: 0
  r_shift: 5
- l_pos: true
  l_idx: 1
  r_pos: true
  r_idx: 1
  r_shift: 6
2147:
- l_pos: true
  l_idx: 0
  r_pos: true
  r_idx: 0
  r_shift: 1
- l_pos: true
  l_idx: 1
  r_pos: true
  r_idx: 0
  r_shift: 6
- l_pos: true
  l_idx: 1
  r_pos: true
  r_idx: 2
  r_shift: 5
2149:
- l_pos: true
  l_idx: 0
  r_pos: true
  r_idx: 0
  r_shift: 5
- l_pos: true
  l_idx: 0
  r_pos: true
  r_idx: 1
  r_shift: 4
- l_pos: true
  l_idx: 1
  r_pos: true
  r_idx: 2
  r_shift: 2
2151:
- l_pos: true
  l_idx: 0
  r_pos: true
  r_idx: 0
  r_shift: 3
- l_pos: false
  l_idx: 1
  r_pos: true
  r_idx: 1
  r_shift: 4
- l_pos: false
  l_idx: 1
  r_pos: true
  r_idx: 2
  r_shift: 4
2153:
- l_pos: false
  l_idx: 0
  r_pos: true
  r_idx: 0
  r_shift: 3
- l_pos: true
  l_idx: 1
  r_pos: true
  r_idx: 0
  r_shift: 7
- l_pos: false
  l_idx: 1
  r_pos: true
  r_idx: 2
  r_shift: 4
2155:
- l_pos: true
  l_idx: 0
  r_pos: true
  r_idx: 0
  r_shift: 4
- l_pos: false
  l_idx: 0
  r_pos: true
  r_idx: 1
  r_shift: 5
- l_pos: false
  l_idx: 1
  r_pos: true
  r_idx: 2
  r_shift: 2
2157:
- l_pos: true
  l_idx: 0
  r_pos: true
  r_idx: 0
  r_shift: 4
- l_pos: false
  l_idx: 0
  r_pos: true
  r_idx: 1
  r_shift: 6
- l_pos: false
  l_idx: 1
  r_pos: true
  r_idx: 2
  r_shift: 1
2159:
- l_pos: true
  l_idx: 0
  r_pos: true
  r_idx: 0
  r_shift: 4
- l_pos: false
  l_idx: 1
  r_pos: true
  r_idx: 1
  r_shift: 7
2161:
- l_pos: true
  l_idx: 0
  r_pos: true
  r_idx: 0
  r_shift: 4
- l_pos: false
  l_idx: 0
  r_pos: true
  r_idx: 1
  r_shift: 3
- l_pos: true
  l_idx: 0
  r_pos: true
  r_idx: 2
  r_shift: 4
2163:
- l_pos: true
  l_idx: 0
  r_pos: true
  r_idx: 0
  r_shift: 4
- l_pos: true
  l_idx: 0
  r_pos: true
  r_idx: 1
  r_shift: 5
- l_pos: false
  l_idx: 1
  r_pos: true
  r_idx: 2
  r_shift: 2
2165:
- l_pos: true
  l_idx: 0
  r_pos: true
  r_idx: 0
  r_shift: 4
- l_pos: false
  l_idx: 0
  r_pos: true
  r_idx: 1
  r_shift: 3
- l_pos: true
  l_idx: 0
  r_pos: true
  r_idx: 2
  r_shift: 2
- l_pos: true
  l_idx: 0
  r_pos: true
  r_idx: 3
  r_shift: 2
2167:
- l_pos: true
  l_idx: 0
  r_pos: true
  r_idx: 0
  r_shift: 4
- l_pos: false
  l_idx: 0
  r_pos: true
  r_idx: 1
  r_shift: 4
- l_pos: false
  l_idx: 0
  r_pos: true
  r_idx: 2
  r_shift: 3
2169:
- l_pos: true
  l_idx: 0
  r_pos: true
  r_idx: 0
  r_shift: 4
- l_pos: false
  l_idx: 0
  r_pos: true
  r_idx: 1
  r_shift: 4
- l_pos: true
  l_idx: 0
  r_pos: true
  r_idx: 2
  r_shift: 3
2171:
- l_pos: true
  l_idx: 0
  r_pos: true
  r_idx: 0
  r_shift: 4
- l_pos: false
  l_idx: 0
  r_pos: true
  r_idx: 1
  r_shift: 5
- l_pos: false
  l_idx: 0
  r_pos: true
  r_idx: 2
  r_shift: 2
2173:
- l_pos: true
  l_idx: 0
  r_pos: true
  r_idx: 0
  r_shift: 4
- l_pos: false
  l_idx: 0
  r_pos: true
  r_idx: 1
  r_shift: 5
- l_pos: true
  l_idx: 0
  r_pos: true
  r_idx: 2
  r_shift: 2
2175:
- l_pos: true
  l_idx: 0
  r_pos: true
  r_idx: 0
  r_shift: 4
- l_pos: false
  l_idx: 0
  r_pos: true
  r_idx: 1
  r_shift: 7
".
Definition text_35 : string := "2177:
- l_pos: true
  l_idx: 0
  r_pos: true
  r_idx: 0
  r_shift: 4
- l_pos: true
  l_idx: 0
  r_pos: true
  r_idx: 1
  r_shift: 7
2179:
- l_pos: true
  l_idx: 0
  r_pos: true
  r_idx: 0
  r_shift: 4
- l_pos: true
  l_idx: 0
  r_pos: true
  r_idx: 1
  r_shift: 5
- l_pos: false
  l_idx: 0
  r_pos: true
  r_idx: 2
  r_shift: 2
2181:
- l_pos: true
  l_idx: 0
  r_pos: true
  r_idx: 0
  r_shift: 4
- l_pos: true
  l_idx: 0
  r_pos: true
  r_idx: 1
  r_shift: 5
- l_pos: true
  l_idx: 0
  r_pos: true
  r_idx: 2
  r_shift: 2
2183:
- l_pos: true
  l_idx: 0
  r_pos: true
  r_idx: 0
  r_shift: 4
- l_pos: true
  l_idx: 0
  r_pos: true
  r_idx: 1
  r_shift: 4
- l_pos: false
  l_idx: 0
  r_pos: true
  r_idx: 2
  r_shift: 3
2185:
- l_pos: true
  l_idx: 0
  r_pos: true
  r_idx: 0
  r_shift: 4
- l_pos: true
  l_idx: 0
  r_pos: true
  r_idx: 1
  r_shift: 4
- l_pos: true
  l_idx: 0
  r_pos: true
  r_idx: 2
  r_shift: 3
2187:
- l_pos: true
  l_idx: 0
  r_pos: true
  r_idx: 0
  r_shift: 4
- l_pos: true
  l_idx: 0
  r_pos: true
  r_idx: 1
  r_shift: 3
- l_pos: false
  l_idx: 0
  r_pos: true
  r_idx: 2
  r_shift: 2
- l_pos: false
  l_idx: 0
  r_pos: true
  r_idx: 3
  r_shift: 2
2189:
- l_pos: true
  l_idx: 0
  r_pos: true
  r_idx: 0
  r_shift: 4
- l_pos: false
  l_idx: 0
  r_pos: true
  r_idx: 1
  r_shift: 5
- l_pos: true
  l_idx: 1
  r_pos: true
  r_idx: 2
  r_shift: 2
2191:
- l_pos: true
  l_idx: 0
  r_pos: true
  r_idx: 0
  r_shift: 4
- l_pos: true
  l_idx: 0
  r_pos: true
  r_idx: 1
  r_shift: 3
- l_pos: false
  l_idx: 0
  r_pos: true
  r_idx: 2
  r_shift: 4
2193:
- l_pos: true
  l_idx: 0
  r_pos: true
  r_idx: 0
  r_shift: 4
- l_pos: true
  l_idx: 1
  r_pos: true
  r_idx: 1
  r_shift: 7
2195:
- l_pos: true
  l_idx: 0
  r_pos: true
  r_idx: 0
  r_shift: 4
- l_pos: true
  l_idx: 0
  r_pos: true
  r_idx: 1
  r_shift: 6
- l_pos: true
  l_idx: 1
  r_pos: true
  r_idx: 2
  r_shift: 1
2197:
- l_pos: true
  l_idx: 0
  r_pos: true
  r_idx: 0
  r_shift: 4
- l_pos: true
  l_idx: 0
  r_pos: true
  r_idx: 1
  r_shift: 5
- l_pos: true
  l_idx: 1
  r_pos: true
  r_idx: 2
  r_shift: 2
2199:
- l_pos: true
  l_idx: 0
  r_pos: true
  r_idx: 0
  r_shift: 4
- l_pos: true
  l_idx: 0
  r_pos: true
  r_idx: 1
  r_shift: 2
- l_pos: false
  l_idx: 0
  r_pos: true
  r_idx: 2
  r_shift: 2
- l_pos: false
  l_idx: 0
  r_pos: true
  r_idx: 3
  r_shift: 3
2201:
- l_pos: true
  l_idx: 0
  r_pos: true
  r_idx: 0
  r_shift: 3
- l_pos: true
  l_idx: 1
  r_pos: true
  r_idx: 0
  r_shift: 7
- l_pos: true
  l_idx: 1
  r_pos: true
  r_idx: 2
  r_shift: 4
2203:
- l_pos: true
  l_idx: 0
  r_pos: true
  r_idx: 0
  r_shift: 2
- l_pos: true
  l_idx: 1
  r_pos: true
  r_idx: 0
  r_shift: 6
- l_pos: false
  l_idx: 1
  r_pos: true
  r_idx: 2
  r_shift: 5
2205:
- l_pos: false
  l_idx: 0
  r_pos: true
  r_idx: 0
  r_shift: 6
- l_pos: true
  l_idx: 1
  r_pos: true
  r_idx: 1
  r_shift: 3
- l_pos: false
  l_idx: 1
  r_pos: true
  r_idx: 2
  r_shift: 2
2207:
- l_pos: true
  l_idx: 0
  r_pos: true
  r_idx: 0
  r_shift: 4
- l_pos: true
  l_idx: 0
  r_pos: true
  r_idx: 1
  r_shift: 2
- l_pos: false
  l_idx: 0
  r_pos: true
  r_idx: 2
  r_shift: 5
2209:
- l_pos: true
  l_idx: 0
  r_pos: true
  r_idx: 0
  r_shift: 4
- l_pos: true
  l_idx: 0
  r_pos: true
  r_idx: 1
  r_shift: 2
- l_pos: true
  l_idx: 0
  r_pos: true
  r_idx: 2
  r_shift: 5
2211:
- l_pos: true
  l_idx: 0
  r_pos: true
  r_idx: 0
  r_shift: 4
- l_pos: true
  l_idx: 1
  r_pos: true
  r_idx: 1
  r_shift: 6
- l_pos: true
  l_idx: 0
  r_pos: true
  r_idx: 2
  r_shift: 1
2213:
- l_pos: true
  l_idx: 0
  r_pos: true
  r_idx: 0
  r_shift: 2
- l_pos: true
  l_idx: 1
  r_pos: true
  r_idx: 0
  r_shift: 6
- l_pos: true
  l_idx: 1
  r_pos: true
  r_idx: 2
  r_shift: 5
2215:
- l_pos: true
  l_idx: 0
  r_pos: true
  r_idx: 0
  r_shift: 4
- l_pos: true
  l_idx: 0
  r_pos: true
  r_idx: 1
  r_shift: 2
- l_pos: true
  l_idx: 0
  r_pos: true
  r_idx: 2
  r_shift: 2
- l_pos: false
  l_idx: 0
  r_pos: true
  r_idx: 3
  r_shift: 3
2217:
- l_pos: true
  l_idx: 0
  r_pos: true
  r_idx: 0
  r_shift: 4
- l_pos: true
  l_idx: 0
  r_pos: true
  r_idx: 1
  r_shift: 2
- l_pos: true
  l_idx: 0
  r_pos: true
  r_idx: 2
  r_shift: 2
- l_pos: true
  l_idx: 0
  r_pos: true
  r_idx: 3
  r_shift: 3
2219:
- l_pos: true
  l_idx: 0
  r_pos: true
  r_idx: 0
  r_shift: 2
- l_pos: true
  l_idx: 1
  r_pos: true
  r_idx: 0
  r_shift: 6
- l_pos: true
  l_idx: 1
  r_pos: true
  r_idx: 2
  r_shift: 4
- l_pos: true
  l_idx: 0
  r_pos: true
  r_idx: 3
  r_shift: 1
2221:
- l_pos: true
  l_idx: 0
  r_pos: true
  r_idx: 0
  r_shift: 2
- l_pos: false
  l_idx: 1
  r_pos: true
  r_idx: 1
  r_shift: 3
- l_pos: false
  l_idx: 1
  r_pos: true
  r_idx: 2
  r_shift: 4
- l_pos: true
  l_idx: 0
  r_pos: true
  r_idx: 3
  r_shift: 2
2223:
- l_pos: true
  l_idx: 0
  r_pos: true
  r_idx: 0
  r_shift: 3
- l_pos: false
  l_idx: 1
  r_pos: true
  r_idx: 1
  r_shift: 5
- l_pos: false
  l_idx: 1
  r_pos: true
  r_idx: 2
  r_shift: 3
2225:
- l_pos: true
  l_idx: 0
  r_pos: true
  r_idx: 0
  r_shift: 4
- l_pos: true
  l_idx: 0
  r_pos: true
  r_idx: 1
  r_shift: 2
- l_pos: true
  l_idx: 1
  r_pos: true
  r_idx: 2
  r_shift: 5
2227:
- l_pos: true
  l_idx: 0
  r_pos: true
  r_idx: 0
  r_shift: 4
- l_pos: true
  l_idx: 1
  r_pos: true
  r_idx: 1
  r_shift: 5
- l_pos: false
  l_idx: 1
  r_pos: true
  r_idx: 2
  r_shift: 2
2229:
- l_pos: true
  l_idx: 0
  r_pos: true
  r_idx: 0
  r_shift: 3
- l_pos: false
  l_idx: 1
  r_pos: true
  r_idx: 1
  r_shift: 5
- l_pos: false
  l_idx: 0
  r_pos: true
  r_idx: 2
  r_shift: 1
- l_pos: true
  l_idx: 0
  r_pos: true
  r_idx: 3
  r_shift: 2
2231:
- l_pos: true
  l_idx: 0
  r_pos: true
  r_idx: 0
  r_shift: 3
- l_pos: false
  l_idx: 1
  r_pos: true
  r_idx: 1
  r_shift: 5
- l_pos: false
  l_idx: 0
  r_pos: true
  r_idx: 2
  r_shift: 3
2233:
- l_pos: true
  l_idx: 0
  r_pos: true
  r_idx: 0
  r_shift: 3
- l_pos: false
  l_idx: 1
  r_pos: true
  r_idx: 1
  r_shift: 5
- l_pos: true
  l_idx: 0
  r_pos: true
  r_idx: 2
  r_shift: 3
2235:
- l_pos: true
  l_idx: 0
  r_pos: true
  r_idx: 0
  r_shift: 2
- l_pos: false
  l_idx: 1
  r_pos: true
  r_idx: 1
  r_shift: 3
- l_pos: false
  l_idx: 1
  r_pos: true
  r_idx: 2
  r_shift: 6
2237:
- l_pos: true
  l_idx: 0
  r_pos: true
  r_idx: 0
  r_shift: 1
- l_pos: true
  l_idx: 1
  r_pos: true
  r_idx: 0
  r_shift: 5
- l_pos: false
  l_idx: 1
  r_pos: true
  r_idx: 2
  r_shift: 6
2239:
- l_pos: true
  l_idx: 0
  r_pos: true
  r_idx: 0
  r_shift: 3
- l_pos: false
  l_idx: 0
  r_pos: true
  r_idx: 1
  r_shift: 2
- l_pos: false
  l_idx: 0
  r_pos: true
  r_idx: 2
  r_shift: 6
".
Definition text_36 : string := "2241:
- l_pos: true
  l_idx: 0
  r_pos: true
  r_idx: 0
  r_shift: 3
- l_pos: false
  l_idx: 0
  r_pos: true
  r_idx: 1
  r_shift: 2
- l_pos: true
  l_idx: 0
  r_pos: true
  r_idx: 2
  r_shift: 6
2243:
- l_pos: true
  l_idx: 0
  r_pos: true
  r_idx: 0
  r_shift: 4
- l_pos: true
  l_idx: 1
  r_pos: true
  r_idx: 1
  r_shift: 5
- l_pos: false
  l_idx: 0
  r_pos: true
  r_idx: 2
  r_shift: 2
2245:
- l_pos: true
  l_idx: 0
  r_pos: true
  r_idx: 0
  r_shift: 4
- l_pos: true
  l_idx: 1
  r_pos: true
  r_idx: 1
  r_shift: 5
- l_pos: true
  l_idx: 0
  r_pos: true
  r_idx: 2
  r_shift: 2
2247:
- l_pos: false
  l_idx: 0
  r_pos: true
  r_idx: 0
  r_shift: 3
- l_pos: true
  l_idx: 1
  r_pos: true
  r_idx: 1
  r_shift: 2
- l_pos: true
  l_idx: 1
  r_pos: true
  r_idx: 2
  r_shift: 6
2249:
- l_pos: true
  l_idx: 0
  r_pos: true
  r_idx: 0
  r_shift: 3
- l_pos: false
  l_idx: 0
  r_pos: true
  r_idx: 1
  r_shift: 2
- l_pos: true
  l_idx: 1
  r_pos: true
  r_idx: 2
  r_shift: 6
2251:
- l_pos: true
  l_idx: 0
  r_pos: true
  r_idx: 0
  r_shift: 1
- l_pos: true
  l_idx: 1
  r_pos: true
  r_idx: 0
  r_shift: 5
- l_pos: true
  l_idx: 1
  r_pos: true
  r_idx: 2
  r_shift: 4
- l_pos: false
  l_idx: 0
  r_pos: true
  r_idx: 3
  r_shift: 2
2253:
- l_pos: true
  l_idx: 0
  r_pos: true
  r_idx: 0
  r_shift: 1
- l_pos: true
  l_idx: 1
  r_pos: true
  r_idx: 0
  r_shift: 5
- l_pos: true
  l_idx: 1
  r_pos: true
  r_idx: 2
  r_shift: 4
- l_pos: true
  l_idx: 0
  r_pos: true
  r_idx: 3
  r_shift: 2
2255:
- l_pos: true
  l_idx: 0
  r_pos: true
  r_idx: 0
  r_shift: 3
- l_pos: false
  l_idx: 0
  r_pos: true
  r_idx: 1
  r_shift: 2
- l_pos: true
  l_idx: 0
  r_pos: true
  r_idx: 2
  r_shift: 2
- l_pos: false
  l_idx: 0
  r_pos: true
  r_idx: 3
  r_shift: 4
2257:
- l_pos: true
  l_idx: 0
  r_pos: true
  r_idx: 0
  r_shift: 4
- l_pos: true
  l_idx: 0
  r_pos: true
  r_idx: 1
  r_shift: 1
- l_pos: true
  l_idx: 1
  r_pos: true
  r_idx: 2
  r_shift: 6
2259:
- l_pos: true
  l_idx: 0
  r_pos: true
  r_idx: 0
  r_shift: 3
- l_pos: false
  l_idx: 1
  r_pos: true
  r_idx: 1
  r_shift: 6
- l_pos: false
  l_idx: 1
  r_pos: true
  r_idx: 2
  r_shift: 2
2261:
- l_pos: true
  l_idx: 0
  r_pos: true
  r_idx: 0
  r_shift: 4
- l_pos: true
  l_idx: 1
  r_pos: true
  r_idx: 1
  r_shift: 5
- l_pos: true
  l_idx: 1
  r_pos: true
  r_idx: 2
  r_shift: 2
2263:
- l_pos: true
  l_idx: 0
  r_pos: true
  r_idx: 0
  r_shift: 3
- l_pos: false
  l_idx: 0
  r_pos: true
  r_idx: 1
  r_shift: 3
- l_pos: false
  l_idx: 1
  r_pos: true
  r_idx: 2
  r_shift: 5
2265:
- l_pos: false
  l_idx: 0
  r_pos: true
  r_idx: 0
  r_shift: 3
- l_pos: true
  l_idx: 1
  r_pos: true
  r_idx: 0
  r_shift: 6
- l_pos: false
  l_idx: 1
  r_pos: true
  r_idx: 2
  r_shift: 5
2267:
- l_pos: true
  l_idx: 0
  r_pos: true
  r_idx: 0
  r_shift: 3
- l_pos: false
  l_idx: 1
  r_pos: true
  r_idx: 1
  r_shift: 6
- l_pos: false
  l_idx: 0
  r_pos: true
  r_idx: 2
  r_shift: 2
2269:
- l_pos: true
  l_idx: 0
  r_pos: true
  r_idx: 0
  r_shift: 3
- l_pos: false
  l_idx: 1
  r_pos: true
  r_idx: 1
  r_shift: 6
- l_pos: true
  l_idx: 0
  r_pos: true
  r_idx: 2
  r_shift: 2
2271:
- l_pos: true
  l_idx: 0
  r_pos: true
  r_idx: 0
  r_shift: 3
- l_pos: false
  l_idx: 0
  r_pos: true
  r_idx: 1
  r_shift: 3
- l_pos: false
  l_idx: 0
  r_pos: true
  r_idx: 2
  r_shift: 5
2273:
- l_pos: true
  l_idx: 0
  r_pos: true
  r_idx: 0
  r_shift: 3
- l_pos: false
  l_idx: 0
  r_pos: true
  r_idx: 1
  r_shift: 3
- l_pos: true
  l_idx: 0
  r_pos: true
  r_idx: 2
  r_shift: 5
2275:
- l_pos: true
  l_idx: 0
  r_pos: true
  r_idx: 0
  r_shift: 6
- l_pos: true
  l_idx: 1
  r_pos: true
  r_idx: 1
  r_shift: 3
- l_pos: false
  l_idx: 1
  r_pos: true
  r_idx: 2
  r_shift: 2
2277:
- l_pos: true
  l_idx: 0
  r_pos: true
  r_idx: 0
  r_shift: 3
- l_pos: false
  l_idx: 1
  r_pos: true
  r_idx: 1
  r_shift: 6
- l_pos: true
  l_idx: 1
  r_pos: true
  r_idx: 2
  r_shift: 2
2279:
- l_pos: true
  l_idx: 0
  r_pos: true
  r_idx: 0
  r_shift: 3
- l_pos: false
  l_idx: 0
  r_pos: true
  r_idx: 1
  r_shift: 4
- l_pos: false
  l_idx: 1
  r_pos: true
  r_idx: 2
  r_shift: 4
2281:
- l_pos: true
  l_idx: 0
  r_pos: true
  r_idx: 0
  r_shift: 3
- l_pos: false
  l_idx: 0
  r_pos: true
  r_idx: 1
  r_shift: 3
- l_pos: true
  l_idx: 1
  r_pos: true
  r_idx: 2
  r_shift: 5
2283:
- l_pos: true
  l_idx: 0
  r_pos: true
  r_idx: 0
  r_shift: 3
- l_pos: false
  l_idx: 0
  r_pos: true
  r_idx: 1
  r_shift: 4
- l_pos: false
  l_idx: 0
  r_pos: true
  r_idx: 2
  r_shift: 2
- l_pos: false
  l_idx: 0
  r_pos: true
  r_idx: 3
  r_shift: 2
2285:
- l_pos: true
  l_idx: 0
  r_pos: true
  r_idx: 0
  r_shift: 3
- l_pos: false
  l_idx: 1
  r_pos: true
  r_idx: 1
  r_shift: 7
- l_pos: false
  l_idx: 0
  r_pos: true
  r_idx: 2
  r_shift: 1
2287:
- l_pos: true
  l_idx: 0
  r_pos: true
  r_idx: 0
  r_shift: 3
- l_pos: false
  l_idx: 0
  r_pos: true
  r_idx: 1
  r_shift: 4
- l_pos: false
  l_idx: 0
  r_pos: true
  r_idx: 2
  r_shift: 4
2289:
- l_pos: true
  l_idx: 0
  r_pos: true
  r_idx: 0
  r_shift: 3
- l_pos: false
  l_idx: 0
  r_pos: true
  r_idx: 1
  r_shift: 4
- l_pos: true
  l_idx: 0
  r_pos: true
  r_idx: 2
  r_shift: 4
2291:
- l_pos: true
  l_idx: 0
  r_pos: true
  r_idx: 0
  r_shift: 3
- l_pos: false
  l_idx: 0
  r_pos: true
  r_idx: 1
  r_shift: 6
- l_pos: false
  l_idx: 1
  r_pos: true
  r_idx: 2
  r_shift: 2
2293:
- l_pos: true
  l_idx: 0
  r_pos: true
  r_idx: 0
  r_shift: 3
- l_pos: false
  l_idx: 0
  r_pos: true
  r_idx: 1
  r_shift: 7
- l_pos: false
  l_idx: 1
  r_pos: true
  r_idx: 2
  r_shift: 1
2295:
- l_pos: true
  l_idx: 0
  r_pos: true
  r_idx: 0
  r_shift: 3
- l_pos: false
  l_idx: 1
  r_pos: true
  r_idx: 1
  r_shift: 8
2297:
- l_pos: true
  l_idx: 0
  r_pos: true
  r_idx: 0
  r_shift: 3
- l_pos: false
  l_idx: 0
  r_pos: true
  r_idx: 1
  r_shift: 5
- l_pos: true
  l_idx: 0
  r_pos: true
  r_idx: 2
  r_shift: 3
2299:
- l_pos: true
  l_idx: 0
  r_pos: true
  r_idx: 0
  r_shift: 3
- l_pos: false
  l_idx: 0
  r_pos: true
  r_idx: 1
  r_shift: 6
- l_pos: false
  l_idx: 0
  r_pos: true
  r_idx: 2
  r_shift: 2
2301:
- l_pos: true
  l_idx: 0
  r_pos: true
  r_idx: 0
  r_shift: 3
- l_pos: false
  l_idx: 0
  r_pos: true
  r_idx: 1
  r_shift: 6
- l_pos: true
  l_idx: 0
  r_pos: true
  r_idx: 2
  r_shift: 2
2303:
- l_pos: true
  l_idx: 0
  r_pos: true
  r_idx: 0
  r_shift: 3
- l_pos: false
  l_idx: 0
  r_pos: true
  r_idx: 1
  r_shift: 8
".
Definition text_37 : string := "2305:
- l_pos: true
  l_idx: 0
  r_pos: true
  r_idx: 0
  r_shift: 3
- l_pos: true
  l_idx: 0
  r_pos: true
  r_idx: 1
  r_shift: 8
2307:
- l_pos: true
  l_idx: 0
  r_pos: true
  r_idx: 0
  r_shift: 3
- l_pos: true
  l_idx: 0
  r_pos: true
  r_idx: 1
  r_shift: 6
- l_pos: false
  l_idx: 0
  r_pos: true
  r_idx: 2
  r_shift: 2
2309:
- l_pos: true
  l_idx: 0
  r_pos: true
  r_idx: 0
  r_shift: 3
- l_pos: true
  l_idx: 0
  r_pos: true
  r_idx: 1
  r_shift: 6
- l_pos: true
  l_idx: 0
  r_pos: true
  r_idx: 2
  r_shift: 2
2311:
- l_pos: true
  l_idx: 0
  r_pos: true
  r_idx: 0
  r_shift: 3
- l_pos: true
  l_idx: 0
  r_pos: true
  r_idx: 1
  r_shift: 5
- l_pos: false
  l_idx: 0
  r_pos: true
  r_idx: 2
  r_shift: 3
2313:
- l_pos: true
  l_idx: 0
  r_pos: true
  r_idx: 0
  r_shift: 3
- l_pos: true
  l_idx: 1
  r_pos: true
  r_idx: 1
  r_shift: 8
2315:
- l_pos: true
  l_idx: 0
  r_pos: true
  r_idx: 0
  r_shift: 3
- l_pos: true
  l_idx: 0
  r_pos: true
  r_idx: 1
  r_shift: 7
- l_pos: true
  l_idx: 1
  r_pos: true
  r_idx: 2
  r_shift: 1
2317:
- l_pos: true
  l_idx: 0
  r_pos: true
  r_idx: 0
  r_shift: 3
- l_pos: true
  l_idx: 0
  r_pos: true
  r_idx: 1
  r_shift: 6
- l_pos: true
  l_idx: 1
  r_pos: true
  r_idx: 2
  r_shift: 2
2319:
- l_pos: true
  l_idx: 0
  r_pos: true
  r_idx: 0
  r_shift: 3
- l_pos: true
  l_idx: 0
  r_pos: true
  r_idx: 1
  r_shift: 4
- l_pos: false
  l_idx: 0
  r_pos: true
  r_idx: 2
  r_shift: 4
2321:
- l_pos: true
  l_idx: 0
  r_pos: true
  r_idx: 0
  r_shift: 3
- l_pos: true
  l_idx: 0
  r_pos: true
  r_idx: 1
  r_shift: 4
- l_pos: true
  l_idx: 0
  r_pos: true
  r_idx: 2
  r_shift: 4
2323:
- l_pos: true
  l_idx: 0
  r_pos: true
  r_idx: 0
  r_shift: 3
- l_pos: true
  l_idx: 1
  r_pos: true
  r_idx: 1
  r_shift: 7
- l_pos: true
  l_idx: 0
  r_pos: true
  r_idx: 2
  r_shift: 1
2325:
- l_pos: true
  l_idx: 0
  r_pos: true
  r_idx: 0
  r_shift: 2
- l_pos: false
  l_idx: 1
  r_pos: true
  r_idx: 1
  r_shift: 4
- l_pos: false
  l_idx: 2
  r_pos: true
  r_idx: 2
  r_shift: 5
2327:
- l_pos: true
  l_idx: 0
  r_pos: true
  r_idx: 0
  r_shift: 3
- l_pos: true
  l_idx: 0
  r_pos: true
  r_idx: 1
  r_shift: 3
- l_pos: false
  l_idx: 1
  r_pos: true
  r_idx: 2
  r_shift: 5
2329:
- l_pos: true
  l_idx: 0
  r_pos: true
  r_idx: 0
  r_shift: 3
- l_pos: true
  l_idx: 0
  r_pos: true
  r_idx: 1
  r_shift: 4
- l_pos: true
  l_idx: 1
  r_pos: true
  r_idx: 2
  r_shift: 4
2331:
- l_pos: true
  l_idx: 0
  r_pos: true
  r_idx: 0
  r_shift: 3
- l_pos: true
  l_idx: 1
  r_pos: true
  r_idx: 1
  r_shift: 6
- l_pos: false
  l_idx: 1
  r_pos: true
  r_idx: 2
  r_shift: 2
2333:
- l_pos: true
  l_idx: 0
  r_pos: true
  r_idx: 0
  r_shift: 3
- l_pos: true
  l_idx: 0
  r_pos: true
  r_idx: 1
  r_shift: 3
- l_pos: false
  l_idx: 0
  r_pos: true
  r_idx: 2
  r_shift: 3
- l_pos: true
  l_idx: 0
  r_pos: true
  r_idx: 3
  r_shift: 2
2335:
- l_pos: true
  l_idx: 0
  r_pos: true
  r_idx: 0
  r_shift: 3
- l_pos: true
  l_idx: 0
  r_pos: true
  r_idx: 1
  r_shift: 3
- l_pos: false
  l_idx: 0
  r_pos: true
  r_idx: 2
  r_shift: 5
2337:
- l_pos: true
  l_idx: 0
  r_pos: true
  r_idx: 0
  r_shift: 3
- l_pos: true
  l_idx: 0
  r_pos: true
  r_idx: 1
  r_shift: 3
- l_pos: true
  l_idx: 0
  r_pos: true
  r_idx: 2
  r_shift: 5
2339:
- l_pos: true
  l_idx: 0
  r_pos: true
  r_idx: 0
  r_shift: 3
- l_pos: true
  l_idx: 1
  r_pos: true
  r_idx: 1
  r_shift: 6
- l_pos: false
  l_idx: 0
  r_pos: true
  r_idx: 2
  r_shift: 2
2341:
- l_pos: true
  l_idx: 0
  r_pos: true
  r_idx: 0
  r_shift: 3
- l_pos: true
  l_idx: 1
  r_pos: true
  r_idx: 1
  r_shift: 6
- l_pos: true
  l_idx: 0
  r_pos: true
  r_idx: 2
  r_shift: 2
2343:
- l_pos: true
  l_idx: 0
  r_pos: true
  r_idx: 0
  r_shift: 5
- l_pos: true
  l_idx: 1
  r_pos: true
  r_idx: 1
  r_shift: 3
- l_pos: false
  l_idx: 1
  r_pos: true
  r_idx: 2
  r_shift: 3
2345:
- l_pos: true
  l_idx: 0
  r_pos: true
  r_idx: 0
  r_shift: 3
- l_pos: true
  l_idx: 0
  r_pos: true
  r_idx: 1
  r_shift: 3
- l_pos: true
  l_idx: 1
  r_pos: true
  r_idx: 2
  r_shift: 5
2347:
- l_pos: true
  l_idx: 0
  r_pos: true
  r_idx: 0
  r_shift: 2
- l_pos: true
  l_idx: 1
  r_pos: true
  r_idx: 0
  r_shift: 5
- l_pos: false
  l_idx: 1
  r_pos: true
  r_idx: 2
  r_shift: 4
- l_pos: false
  l_idx: 0
  r_pos: true
  r_idx: 3
  r_shift: 2
2349:
- l_pos: true
  l_idx: 0
  r_pos: true
  r_idx: 0
  r_shift: 3
- l_pos: true
  l_idx: 1
  r_pos: true
  r_idx: 1
  r_shift: 6
- l_pos: true
  l_idx: 1
  r_pos: true
  r_idx: 2
  r_shift: 2
2351:
- l_pos: true
  l_idx: 0
  r_pos: true
  r_idx: 0
  r_shift: 3
- l_pos: true
  l_idx: 0
  r_pos: true
  r_idx: 1
  r_shift: 2
- l_pos: false
  l_idx: 0
  r_pos: true
  r_idx: 2
  r_shift: 2
- l_pos: false
  l_idx: 0
  r_pos: true
  r_idx: 3
  r_shift: 4
2353:
- l_pos: true
  l_idx: 0
  r_pos: true
  r_idx: 0
  r_shift: 3
- l_pos: true
  l_idx: 0
  r_pos: true
  r_idx: 1
  r_shift: 2
- l_pos: false
  l_idx: 0
  r_pos: true
  r_idx: 2
  r_shift: 2
- l_pos: true
  l_idx: 0
  r_pos: true
  r_idx: 3
  r_shift: 4
2355:
- l_pos: true
  l_idx: 0
  r_pos: true
  r_idx: 0
  r_shift: 3
- l_pos: true
  l_idx: 0
  r_pos: true
  r_idx: 1
  r_shift: 3
- l_pos: true
  l_idx: 1
  r_pos: true
  r_idx: 2
  r_shift: 4
- l_pos: true
  l_idx: 0
  r_pos: true
  r_idx: 3
  r_shift: 1
2357:
- l_pos: true
  l_idx: 0
  r_pos: true
  r_idx: 0
  r_shift: 2
- l_pos: true
  l_idx: 1
  r_pos: true
  r_idx: 0
  r_shift: 5
- l_pos: false
  l_idx: 1
  r_pos: true
  r_idx: 2
  r_shift: 5
- l_pos: false
  l_idx: 0
  r_pos: true
  r_idx: 3
  r_shift: 1
2359:
- l_pos: true
  l_idx: 0
  r_pos: true
  r_idx: 0
  r_shift: 3
- l_pos: true
  l_idx: 0
  r_pos: true
  r_idx: 1
  r_shift: 2
- l_pos: false
  l_idx: 1
  r_pos: true
  r_idx: 2
  r_shift: 6
2361:
- l_pos: true
  l_idx: 0
  r_pos: true
  r_idx: 0
  r_shift: 3
- l_pos: true
  l_idx: 0
  r_pos: true
  r_idx: 1
  r_shift: 2
- l_pos: false
  l_idx: 0
  r_pos: true
  r_idx: 2
  r_shift: 3
- l_pos: true
  l_idx: 0
  r_pos: true
  r_idx: 3
  r_shift: 3
2363:
- l_pos: true
  l_idx: 0
  r_pos: true
  r_idx: 0
  r_shift: 2
- l_pos: true
  l_idx: 1
  r_pos: true
  r_idx: 0
  r_shift: 5
- l_pos: false
  l_idx: 1
  r_pos: true
  r_idx: 2
  r_shift: 6
2365:
- l_pos: true
  l_idx: 0
  r_pos: true
  r_idx: 0
  r_shift: 3
- l_pos: true
  l_idx: 0
  r_pos: true
  r_idx: 1
  r_shift: 2
- l_pos: false
  l_idx: 0
  r_pos: true
  r_idx: 2
  r_shift: 4
- l_pos: true
  l_idx: 0
  r_pos: true
  r_idx: 3
  r_shift: 2
2367:
- l_pos: true
  l_idx: 0
  r_pos: true
  r_idx: 0
  r_shift: 3
- l_pos: true
  l_idx: 0
  r_pos: true
  r_idx: 1
  r_shift: 2
- l_pos: false
  l_idx: 0
  r_pos: true
  r_idx: 2
  r_shift: 6
".
Definition text_38 : string := "2369:
- l_pos: true
  l_idx: 0
  r_pos: true
  r_idx: 0
  r_shift: 3
- l_pos: true
  l_idx: 0
  r_pos: true
  r_idx: 1
  r_shift: 2
- l_pos: true
  l_idx: 0
  r_pos: true
  r_idx: 2
  r_shift: 6
2371:
- l_pos: true
  l_idx: 0
  r_pos: true
  r_idx: 0
  r_shift: 3
- l_pos: true
  l_idx: 0
  r_pos: true
  r_idx: 1
  r_shift: 2
- l_pos: true
  l_idx: 0
  r_pos: true
  r_idx: 2
  r_shift: 4
- l_pos: false
  l_idx: 0
  r_pos: true
  r_idx: 3
  r_shift: 2
2373:
- l_pos: true
  l_idx: 0
  r_pos: true
  r_idx: 0
  r_shift: 2
- l_pos: true
  l_idx: 1
  r_pos: true
  r_idx: 0
  r_shift: 5
- l_pos: true
  l_idx: 1
  r_pos: true
  r_idx: 2
  r_shift: 6
2375:
- l_pos: true
  l_idx: 0
  r_pos: true
  r_idx: 0
  r_shift: 3
- l_pos: true
  l_idx: 1
  r_pos: true
  r_idx: 1
  r_shift: 5
- l_pos: false
  l_idx: 0
  r_pos: true
  r_idx: 2
  r_shift: 3
2377:
- l_pos: true
  l_idx: 0
  r_pos: true
  r_idx: 0
  r_shift: 3
- l_pos: true
  l_idx: 1
  r_pos: true
  r_idx: 1
  r_shift: 5
- l_pos: true
  l_idx: 0
  r_pos: true
  r_idx: 2
  r_shift: 3
2379:
- l_pos: true
  l_idx: 0
  r_pos: true
  r_idx: 0
  r_shift: 3
- l_pos: true
  l_idx: 1
  r_pos: true
  r_idx: 1
  r_shift: 5
- l_pos: true
  l_idx: 0
  r_pos: true
  r_idx: 2
  r_shift: 1
- l_pos: false
  l_idx: 0
  r_pos: true
  r_idx: 3
  r_shift: 2
2381:
- l_pos: true
  l_idx: 0
  r_pos: true
  r_idx: 0
  r_shift: 3
- l_pos: true
  l_idx: 1
  r_pos: true
  r_idx: 1
  r_shift: 5
- l_pos: true
  l_idx: 0
  r_pos: true
  r_idx: 2
  r_shift: 1
- l_pos: true
  l_idx: 0
  r_pos: true
  r_idx: 3
  r_shift: 2
2383:
- l_pos: true
  l_idx: 0
  r_pos: true
  r_idx: 0
  r_shift: 3
- l_pos: true
  l_idx: 0
  r_pos: true
  r_idx: 1
  r_shift: 2
- l_pos: true
  l_idx: 0
  r_pos: true
  r_idx: 2
  r_shift: 2
- l_pos: false
  l_idx: 0
  r_pos: true
  r_idx: 3
  r_shift: 4
2385:
- l_pos: true
  l_idx: 0
  r_pos: true
  r_idx: 0
  r_shift: 3
- l_pos: true
  l_idx: 1
  r_pos: true
  r_idx: 1
  r_shift: 5
- l_pos: true
  l_idx: 1
  r_pos: true
  r_idx: 2
  r_shift: 3
2387:
- l_pos: true
  l_idx: 0
  r_pos: true
  r_idx: 0
  r_shift: 2
- l_pos: true
  l_idx: 1
  r_pos: true
  r_idx: 0
  r_shift: 5
- l_pos: true
  l_idx: 1
  r_pos: true
  r_idx: 2
  r_shift: 4
- l_pos: false
  l_idx: 0
  r_pos: true
  r_idx: 3
  r_shift: 2
2389:
- l_pos: true
  l_idx: 0
  r_pos: true
  r_idx: 0
  r_shift: 2
- l_pos: true
  l_idx: 1
  r_pos: true
  r_idx: 0
  r_shift: 5
- l_pos: true
  l_idx: 1
  r_pos: true
  r_idx: 2
  r_shift: 4
- l_pos: true
  l_idx: 0
  r_pos: true
  r_idx: 3
  r_shift: 2
2391:
- l_pos: true
  l_idx: 0
  r_pos: true
  r_idx: 0
  r_shift: 2
- l_pos: false
  l_idx: 1
  r_pos: true
  r_idx: 1
  r_shift: 4
- l_pos: false
  l_idx: 0
  r_pos: true
  r_idx: 2
  r_shift: 2
- l_pos: false
  l_idx: 0
  r_pos: true
  r_idx: 3
  r_shift: 3
2393:
- l_pos: true
  l_idx: 0
  r_pos: true
  r_idx: 0
  r_shift: 2
- l_pos: false
  l_idx: 1
  r_pos: true
  r_idx: 1
  r_shift: 4
- l_pos: false
  l_idx: 0
  r_pos: true
  r_idx: 2
  r_shift: 2
- l_pos: true
  l_idx: 0
  r_pos: true
  r_idx: 3
  r_shift: 3
2395:
- l_pos: true
  l_idx: 0
  r_pos: true
  r_idx: 0
  r_shift: 2
- l_pos: false
  l_idx: 1
  r_pos: true
  r_idx: 1
  r_shift: 4
- l_pos: false
  l_idx: 1
  r_pos: true
  r_idx: 2
  r_shift: 5
2397:
- l_pos: true
  l_idx: 0
  r_pos: true
  r_idx: 0
  r_shift: 2
- l_pos: false
  l_idx: 1
  r_pos: true
  r_idx: 1
  r_shift: 4
- l_pos: false
  l_idx: 0
  r_pos: true
  r_idx: 2
  r_shift: 3
- l_pos: true
  l_idx: 0
  r_pos: true
  r_idx: 3
  r_shift: 2
2399:
- l_pos: true
  l_idx: 0
  r_pos: true
  r_idx: 0
  r_shift: 2
- l_pos: false
  l_idx: 1
  r_pos: true
  r_idx: 1
  r_shift: 4
- l_pos: false
  l_idx: 0
  r_pos: true
  r_idx: 2
  r_shift: 5
2401:
- l_pos: true
  l_idx: 0
  r_pos: true
  r_idx: 0
  r_shift: 2
- l_pos: false
  l_idx: 1
  r_pos: true
  r_idx: 1
  r_shift: 4
- l_pos: true
  l_idx: 0
  r_pos: true
  r_idx: 2
  r_shift: 5
2403:
- l_pos: true
  l_idx: 0
  r_pos: true
  r_idx: 0
  r_shift: 2
- l_pos: false
  l_idx: 1
  r_pos: true
  r_idx: 1
  r_shift: 4
- l_pos: true
  l_idx: 0
  r_pos: true
  r_idx: 2
  r_shift: 3
- l_pos: false
  l_idx: 0
  r_pos: true
  r_idx: 3
  r_shift: 2
2405:
- l_pos: true
  l_idx: 0
  r_pos: true
  r_idx: 0
  r_shift: 2
- l_pos: false
  l_idx: 1
  r_pos: true
  r_idx: 1
  r_shift: 4
- l_pos: true
  l_idx: 1
  r_pos: true
  r_idx: 2
  r_shift: 5
2407:
- l_pos: true
  l_idx: 0
  r_pos: true
  r_idx: 0
  r_shift: 2
- l_pos: false
  l_idx: 1
  r_pos: true
  r_idx: 1
  r_shift: 4
- l_pos: true
  l_idx: 0
  r_pos: true
  r_idx: 2
  r_shift: 2
- l_pos: false
  l_idx: 0
  r_pos: true
  r_idx: 3
  r_shift: 3
2409:
- l_pos: true
  l_idx: 0
  r_pos: true
  r_idx: 0
  r_shift: 5
- l_pos: true
  l_idx: 1
  r_pos: true
  r_idx: 1
  r_shift: 3
- l_pos: true
  l_idx: 1
  r_pos: true
  r_idx: 2
  r_shift: 3
2411:
- l_pos: true
  l_idx: 0
  r_pos: true
  r_idx: 0
  r_shift: 2
- l_pos: false
  l_idx: 0
  r_pos: true
  r_idx: 1
  r_shift: 2
- l_pos: false
  l_idx: 1
  r_pos: true
  r_idx: 2
  r_shift: 5
- l_pos: false
  l_idx: 0
  r_pos: true
  r_idx: 3
  r_shift: 2
2413:
- l_pos: false
  l_idx: 0
  r_pos: true
  r_idx: 0
  r_shift: 7
- l_pos: true
  l_idx: 1
  r_pos: true
  r_idx: 1
  r_shift: 2
- l_pos: false
  l_idx: 1
  r_pos: true
  r_idx: 2
  r_shift: 2
2415:
- l_pos: true
  l_idx: 0
  r_pos: true
  r_idx: 0
  r_shift: 4
- l_pos: true
  l_idx: 1
  r_pos: true
  r_idx: 0
  r_shift: 1
- l_pos: false
  l_idx: 1
  r_pos: true
  r_idx: 2
  r_shift: 7
2417:
- l_pos: false
  l_idx: 0
  r_pos: true
  r_idx: 0
  r_shift: 4
- l_pos: true
  l_idx: 1
  r_pos: true
  r_idx: 0
  r_shift: 2
- l_pos: false
  l_idx: 1
  r_pos: true
  r_idx: 2
  r_shift: 7
2419:
- l_pos: true
  l_idx: 0
  r_pos: true
  r_idx: 0
  r_shift: 1
- l_pos: true
  l_idx: 1
  r_pos: true
  r_idx: 0
  r_shift: 4
- l_pos: false
  l_idx: 1
  r_pos: true
  r_idx: 2
  r_shift: 5
- l_pos: false
  l_idx: 0
  r_pos: true
  r_idx: 3
  r_shift: 2
2421:
- l_pos: true
  l_idx: 0
  r_pos: true
  r_idx: 0
  r_shift: 1
- l_pos: true
  l_idx: 1
  r_pos: true
  r_idx: 0
  r_shift: 4
- l_pos: false
  l_idx: 1
  r_pos: true
  r_idx: 2
  r_shift: 5
- l_pos: true
  l_idx: 0
  r_pos: true
  r_idx: 3
  r_shift: 2
2423:
- l_pos: true
  l_idx: 0
  r_pos: true
  r_idx: 0
  r_shift: 3
- l_pos: true
  l_idx: 0
  r_pos: true
  r_idx: 1
  r_shift: 1
- l_pos: false
  l_idx: 1
  r_pos: true
  r_idx: 2
  r_shift: 7
2425:
- l_pos: true
  l_idx: 0
  r_pos: true
  r_idx: 0
  r_shift: 2
- l_pos: false
  l_idx: 0
  r_pos: true
  r_idx: 1
  r_shift: 2
- l_pos: false
  l_idx: 0
  r_pos: true
  r_idx: 2
  r_shift: 4
- l_pos: true
  l_idx: 0
  r_pos: true
  r_idx: 3
  r_shift: 3
2427:
- l_pos: true
  l_idx: 0
  r_pos: true
  r_idx: 0
  r_shift: 2
- l_pos: false
  l_idx: 0
  r_pos: true
  r_idx: 1
  r_shift: 2
- l_pos: false
  l_idx: 1
  r_pos: true
  r_idx: 2
  r_shift: 7
2429:
- l_pos: true
  l_idx: 0
  r_pos: true
  r_idx: 0
  r_shift: 1
- l_pos: true
  l_idx: 1
  r_pos: true
  r_idx: 0
  r_shift: 4
- l_pos: false
  l_idx: 1
  r_pos: true
  r_idx: 2
  r_shift: 7
2431:
- l_pos: true
  l_idx: 0
  r_pos: true
  r_idx: 0
  r_shift: 2
- l_pos: false
  l_idx: 0
  r_pos: true
  r_idx: 1
  r_shift: 2
- l_pos: false
  l_idx: 0
  r_pos: true
  r_idx: 2
  r_shift: 7
".
Definition text_39 : string := "2433:
- l_pos: true
  l_idx: 0
  r_pos: true
  r_idx: 0
  r_shift: 2
- l_pos: false
  l_idx: 0
  r_pos: true
  r_idx: 1
  r_shift: 2
- l_pos: true
  l_idx: 0
  r_pos: true
  r_idx: 2
  r_shift: 7
2435:
- l_pos: true
  l_idx: 0
  r_pos: true
  r_idx: 0
  r_shift: 1
- l_pos: true
  l_idx: 1
  r_pos: true
  r_idx: 0
  r_shift: 4
- l_pos: true
  l_idx: 1
  r_pos: true
  r_idx: 2
  r_shift: 7
2437:
- l_pos: true
  l_idx: 0
  r_pos: true
  r_idx: 0
  r_shift: 2
- l_pos: false
  l_idx: 0
  r_pos: true
  r_idx: 1
  r_shift: 2
- l_pos: true
  l_idx: 1
  r_pos: true
  r_idx: 2
  r_shift: 7
2439:
- l_pos: true
  l_idx: 0
  r_pos: true
  r_idx: 0
  r_shift: 3
- l_pos: true
  l_idx: 1
  r_pos: true
  r_idx: 1
  r_shift: 4
- l_pos: false
  l_idx: 1
  r_pos: true
  r_idx: 2
  r_shift: 4
2441:
- l_pos: true
  l_idx: 0
  r_pos: true
  r_idx: 0
  r_shift: 3
- l_pos: true
  l_idx: 0
  r_pos: true
  r_idx: 1
  r_shift: 1
- l_pos: true
  l_idx: 1
  r_pos: true
  r_idx: 2
  r_shift: 7
2443:
- l_pos: true
  l_idx: 0
  r_pos: true
  r_idx: 0
  r_shift: 3
- l_pos: true
  l_idx: 1
  r_pos: true
  r_idx: 1
  r_shift: 4
- l_pos: false
  l_idx: 0
  r_pos: true
  r_idx: 2
  r_shift: 2
- l_pos: false
  l_idx: 0
  r_pos: true
  r_idx: 3
  r_shift: 2
2445:
- l_pos: true
  l_idx: 0
  r_pos: true
  r_idx: 0
  r_shift: 3
- l_pos: true
  l_idx: 1
  r_pos: true
  r_idx: 1
  r_shift: 4
- l_pos: false
  l_idx: 0
  r_pos: true
  r_idx: 2
  r_shift: 2
- l_pos: true
  l_idx: 0
  r_pos: true
  r_idx: 3
  r_shift: 2
2447:
- l_pos: true
  l_idx: 0
  r_pos: true
  r_idx: 0
  r_shift: 3
- l_pos: true
  l_idx: 1
  r_pos: true
  r_idx: 1
  r_shift: 4
- l_pos: false
  l_idx: 0
  r_pos: true
  r_idx: 2
  r_shift: 4
2449:
- l_pos: true
  l_idx: 0
  r_pos: true
  r_idx: 0
  r_shift: 3
- l_pos: true
  l_idx: 1
  r_pos: true
  r_idx: 1
  r_shift: 4
- l_pos: true
  l_idx: 0
  r_pos: true
  r_idx: 2
  r_shift: 4
2451:
- l_pos: true
  l_idx: 0
  r_pos: true
  r_idx: 0
  r_shift: 7
- l_pos: true
  l_idx: 1
  r_pos: true
  r_idx: 1
  r_shift: 2
- l_pos: false
  l_idx: 1
  r_pos: true
  r_idx: 2
  r_shift: 2
2453:
- l_pos: true
  l_idx: 0
  r_pos: true
  r_idx: 0
  r_shift: 3
- l_pos: true
  l_idx: 1
  r_pos: true
  r_idx: 1
  r_shift: 4
- l_pos: true
  l_idx: 0
  r_pos: true
  r_idx: 2
  r_shift: 2
- l_pos: true
  l_idx: 0
  r_pos: true
  r_idx: 3
  r_shift: 2
2455:
- l_pos: true
  l_idx: 0
  r_pos: true
  r_idx: 0
  r_shift: 3
- l_pos: true
  l_idx: 1
  r_pos: true
  r_idx: 1
  r_shift: 4
- l_pos: true
  l_idx: 0
  r_pos: true
  r_idx: 2
  r_shift: 1
- l_pos: false
  l_idx: 0
  r_pos: true
  r_idx: 3
  r_shift: 3
2457:
- l_pos: true
  l_idx: 0
  r_pos: true
  r_idx: 0
  r_shift: 3
- l_pos: true
  l_idx: 1
  r_pos: true
  r_idx: 1
  r_shift: 4
- l_pos: true
  l_idx: 1
  r_pos: true
  r_idx: 2
  r_shift: 4
2459:
- l_pos: true
  l_idx: 0
  r_pos: true
  r_idx: 0
  r_shift: 2
- l_pos: false
  l_idx: 1
  r_pos: true
  r_idx: 1
  r_shift: 5
- l_pos: false
  l_idx: 1
  r_pos: true
  r_idx: 2
  r_shift: 2
- l_pos: false
  l_idx: 0
  r_pos: true
  r_idx: 3
  r_shift: 2
2461:
- l_pos: true
  l_idx: 0
  r_pos: true
  r_idx: 0
  r_shift: 2
- l_pos: false
  l_idx: 1
  r_pos: true
  r_idx: 1
  r_shift: 5
- l_pos: false
  l_idx: 1
  r_pos: true
  r_idx: 2
  r_shift: 2
- l_pos: true
  l_idx: 0
  r_pos: true
  r_idx: 3
  r_shift: 2
2463:
- l_pos: true
  l_idx: 0
  r_pos: true
  r_idx: 0
  r_shift: 2
- l_pos: false
  l_idx: 0
  r_pos: true
  r_idx: 1
  r_shift: 2
- l_pos: true
  l_idx: 0
  r_pos: true
  r_idx: 2
  r_shift: 2
- l_pos: false
  l_idx: 0
  r_pos: true
  r_idx: 3
  r_shift: 5
2465:
- l_pos: true
  l_idx: 0
  r_pos: true
  r_idx: 0
  r_shift: 4
- l_pos: true
  l_idx: 1
  r_pos: true
  r_idx: 1
  r_shift: 3
- l_pos: true
  l_idx: 1
  r_pos: true
  r_idx: 2
  r_shift: 4
2467:
- l_pos: true
  l_idx: 0
  r_pos: true
  r_idx: 0
  r_shift: 3
- l_pos: true
  l_idx: 0
  r_pos: true
  r_idx: 1
  r_shift: 1
- l_pos: true
  l_idx: 1
  r_pos: true
  r_idx: 2
  r_shift: 5
- l_pos: false
  l_idx: 0
  r_pos: true
  r_idx: 3
  r_shift: 2
2469:
- l_pos: true
  l_idx: 0
  r_pos: true
  r_idx: 0
  r_shift: 2
- l_pos: false
  l_idx: 1
  r_pos: true
  r_idx: 1
  r_shift: 5
- l_pos: false
  l_idx: 1
  r_pos: true
  r_idx: 2
  r_shift: 3
- l_pos: false
  l_idx: 0
  r_pos: true
  r_idx: 3
  r_shift: 1
2471:
- l_pos: true
  l_idx: 0
  r_pos: true
  r_idx: 0
  r_shift: 2
- l_pos: false
  l_idx: 1
  r_pos: true
  r_idx: 1
  r_shift: 5
- l_pos: false
  l_idx: 0
  r_pos: true
  r_idx: 2
  r_shift: 1
- l_pos: false
  l_idx: 0
  r_pos: true
  r_idx: 3
  r_shift: 3
2473:
- l_pos: true
  l_idx: 0
  r_pos: true
  r_idx: 0
  r_shift: 2
- l_pos: false
  l_idx: 1
  r_pos: true
  r_idx: 1
  r_shift: 5
- l_pos: false
  l_idx: 0
  r_pos: true
  r_idx: 2
  r_shift: 1
- l_pos: true
  l_idx: 0
  r_pos: true
  r_idx: 3
  r_shift: 3
2475:
- l_pos: true
  l_idx: 0
  r_pos: true
  r_idx: 0
  r_shift: 2
- l_pos: false
  l_idx: 1
  r_pos: true
  r_idx: 1
  r_shift: 5
- l_pos: false
  l_idx: 1
  r_pos: true
  r_idx: 2
  r_shift: 4
2477:
- l_pos: true
  l_idx: 0
  r_pos: true
  r_idx: 0
  r_shift: 2
- l_pos: false
  l_idx: 1
  r_pos: true
  r_idx: 1
  r_shift: 5
- l_pos: false
  l_idx: 0
  r_pos: true
  r_idx: 2
  r_shift: 2
- l_pos: true
  l_idx: 0
  r_pos: true
  r_idx: 3
  r_shift: 2
2479:
- l_pos: true
  l_idx: 0
  r_pos: true
  r_idx: 0
  r_shift: 2
- l_pos: false
  l_idx: 1
  r_pos: true
  r_idx: 1
  r_shift: 5
- l_pos: false
  l_idx: 0
  r_pos: true
  r_idx: 2
  r_shift: 4
2481:
- l_pos: true
  l_idx: 0
  r_pos: true
  r_idx: 0
  r_shift: 2
- l_pos: false
  l_idx: 1
  r_pos: true
  r_idx: 1
  r_shift: 5
- l_pos: true
  l_idx: 0
  r_pos: true
  r_idx: 2
  r_shift: 4
2483:
- l_pos: true
  l_idx: 0
  r_pos: true
  r_idx: 0
  r_shift: 2
- l_pos: false
  l_idx: 1
  r_pos: true
  r_idx: 1
  r_shift: 5
- l_pos: true
  l_idx: 0
  r_pos: true
  r_idx: 2
  r_shift: 2
- l_pos: false
  l_idx: 0
  r_pos: true
  r_idx: 3
  r_shift: 2
2485:
- l_pos: true
  l_idx: 0
  r_pos: true
  r_idx: 0
  r_shift: 2
- l_pos: false
  l_idx: 1
  r_pos: true
  r_idx: 1
  r_shift: 5
- l_pos: true
  l_idx: 1
  r_pos: true
  r_idx: 2
  r_shift: 4
2487:
- l_pos: true
  l_idx: 0
  r_pos: true
  r_idx: 0
  r_shift: 2
- l_pos: false
  l_idx: 0
  r_pos: true
  r_idx: 1
  r_shift: 3
- l_pos: false
  l_idx: 0
  r_pos: true
  r_idx: 2
  r_shift: 3
- l_pos: false
  l_idx: 0
  r_pos: true
  r_idx: 3
  r_shift: 3
2489:
- l_pos: false
  l_idx: 0
  r_pos: true
  r_idx: 0
  r_shift: 3
- l_pos: true
  l_idx: 1
  r_pos: true
  r_idx: 0
  r_shift: 5
- l_pos: false
  l_idx: 1
  r_pos: true
  r_idx: 2
  r_shift: 6
2491:
- l_pos: true
  l_idx: 0
  r_pos: true
  r_idx: 0
  r_shift: 2
- l_pos: false
  l_idx: 0
  r_pos: true
  r_idx: 1
  r_shift: 3
- l_pos: false
  l_idx: 1
  r_pos: true
  r_idx: 2
  r_shift: 6
2493:
- l_pos: true
  l_idx: 0
  r_pos: true
  r_idx: 0
  r_shift: 2
- l_pos: false
  l_idx: 0
  r_pos: true
  r_idx: 1
  r_shift: 3
- l_pos: false
  l_idx: 0
  r_pos: true
  r_idx: 2
  r_shift: 4
- l_pos: true
  l_idx: 0
  r_pos: true
  r_idx: 3
  r_shift: 2
2495:
- l_pos: true
  l_idx: 0
  r_pos: true
  r_idx: 0
  r_shift: 2
- l_pos: false
  l_idx: 0
  r_pos: true
  r_idx: 1
  r_shift: 3
- l_pos: false
  l_idx: 0
  r_pos: true
  r_idx: 2
  r_shift: 6
".
Definition text_40 : string := "2497:
- l_pos: true
  l_idx: 0
  r_pos: true
  r_idx: 0
  r_shift: 2
- l_pos: false
  l_idx: 0
  r_pos: true
  r_idx: 1
  r_shift: 3
- l_pos: true
  l_idx: 0
  r_pos: true
  r_idx: 2
  r_shift: 6
2499:
- l_pos: true
  l_idx: 0
  r_pos: true
  r_idx: 0
  r_shift: 2
- l_pos: false
  l_idx: 0
  r_pos: true
  r_idx: 1
  r_shift: 3
- l_pos: true
  l_idx: 0
  r_pos: true
  r_idx: 2
  r_shift: 4
- l_pos: false
  l_idx: 0
  r_pos: true
  r_idx: 3
  r_shift: 2
2501:
- l_pos: true
  l_idx: 0
  r_pos: true
  r_idx: 0
  r_shift: 2
- l_pos: false
  l_idx: 0
  r_pos: true
  r_idx: 1
  r_shift: 3
- l_pos: true
  l_idx: 1
  r_pos: true
  r_idx: 2
  r_shift: 6
2503:
- l_pos: false
  l_idx: 0
  r_pos: true
  r_idx: 0
  r_shift: 3
- l_pos: true
  l_idx: 1
  r_pos: true
  r_idx: 0
  r_shift: 5
- l_pos: true
  l_idx: 1
  r_pos: true
  r_idx: 2
  r_shift: 6
2505:
- l_pos: true
  l_idx: 0
  r_pos: true
  r_idx: 0
  r_shift: 2
- l_pos: false
  l_idx: 0
  r_pos: true
  r_idx: 1
  r_shift: 3
- l_pos: true
  l_idx: 0
  r_pos: true
  r_idx: 2
  r_shift: 3
- l_pos: true
  l_idx: 0
  r_pos: true
  r_idx: 3
  r_shift: 3
2507:
- l_pos: true
  l_idx: 0
  r_pos: true
  r_idx: 0
  r_shift: 2
- l_pos: false
  l_idx: 0
  r_pos: true
  r_idx: 1
  r_shift: 3
- l_pos: true
  l_idx: 1
  r_pos: true
  r_idx: 2
  r_shift: 5
- l_pos: true
  l_idx: 0
  r_pos: true
  r_idx: 3
  r_shift: 1
2509:
- l_pos: true
  l_idx: 0
  r_pos: true
  r_idx: 0
  r_shift: 2
- l_pos: false
  l_idx: 0
  r_pos: true
  r_idx: 1
  r_shift: 4
- l_pos: false
  l_idx: 1
  r_pos: true
  r_idx: 2
  r_shift: 3
- l_pos: true
  l_idx: 0
  r_pos: true
  r_idx: 3
  r_shift: 2
2511:
- l_pos: false
  l_idx: 0
  r_pos: true
  r_idx: 0
  r_shift: 5
- l_pos: true
  l_idx: 1
  r_pos: true
  r_idx: 1
  r_shift: 2
- l_pos: true
  l_idx: 1
  r_pos: true
  r_idx: 2
  r_shift: 4
2513:
- l_pos: false
  l_idx: 0
  r_pos: true
  r_idx: 0
  r_shift: 4
- l_pos: true
  l_idx: 1
  r_pos: true
  r_idx: 0
  r_shift: 6
- l_pos: false
  l_idx: 1
  r_pos: true
  r_idx: 2
  r_shift: 5
2515:
- l_pos: true
  l_idx: 0
  r_pos: true
  r_idx: 0
  r_shift: 2
- l_pos: false
  l_idx: 1
  r_pos: true
  r_idx: 1
  r_shift: 6
- l_pos: false
  l_idx: 1
  r_pos: true
  r_idx: 2
  r_shift: 3
2517:
- l_pos: true
  l_idx: 0
  r_pos: true
  r_idx: 0
  r_shift: 2
- l_pos: false
  l_idx: 1
  r_pos: true
  r_idx: 1
  r_shift: 6
- l_pos: false
  l_idx: 0
  r_pos: true
  r_idx: 2
  r_shift: 1
- l_pos: true
  l_idx: 0
  r_pos: true
  r_idx: 3
  r_shift: 2
2519:
- l_pos: true
  l_idx: 0
  r_pos: true
  r_idx: 0
  r_shift: 2
- l_pos: false
  l_idx: 1
  r_pos: true
  r_idx: 1
  r_shift: 6
- l_pos: false
  l_idx: 0
  r_pos: true
  r_idx: 2
  r_shift: 3
2521:
- l_pos: true
  l_idx: 0
  r_pos: true
  r_idx: 0
  r_shift: 2
- l_pos: false
  l_idx: 1
  r_pos: true
  r_idx: 1
  r_shift: 6
- l_pos: true
  l_idx: 0
  r_pos: true
  r_idx: 2
  r_shift: 3
2523:
- l_pos: true
  l_idx: 0
  r_pos: true
  r_idx: 0
  r_shift: 2
- l_pos: false
  l_idx: 0
  r_pos: true
  r_idx: 1
  r_shift: 4
- l_pos: false
  l_idx: 1
  r_pos: true
  r_idx: 2
  r_shift: 5
2525:
- l_pos: true
  l_idx: 0
  r_pos: true
  r_idx: 0
  r_shift: 2
- l_pos: false
  l_idx: 1
  r_pos: true
  r_idx: 1
  r_shift: 6
- l_pos: true
  l_idx: 1
  r_pos: true
  r_idx: 2
  r_shift: 3
2527:
- l_pos: true
  l_idx: 0
  r_pos: true
  r_idx: 0
  r_shift: 2
- l_pos: false
  l_idx: 0
  r_pos: true
  r_idx: 1
  r_shift: 4
- l_pos: false
  l_idx: 0
  r_pos: true
  r_idx: 2
  r_shift: 5
2529:
- l_pos: true
  l_idx: 0
  r_pos: true
  r_idx: 0
  r_shift: 2
- l_pos: false
  l_idx: 0
  r_pos: true
  r_idx: 1
  r_shift: 4
- l_pos: true
  l_idx: 0
  r_pos: true
  r_idx: 2
  r_shift: 5
2531:
- l_pos: true
  l_idx: 0
  r_pos: true
  r_idx: 0
  r_shift: 2
- l_pos: false
  l_idx: 0
  r_pos: true
  r_idx: 1
  r_shift: 4
- l_pos: true
  l_idx: 0
  r_pos: true
  r_idx: 2
  r_shift: 3
- l_pos: false
  l_idx: 0
  r_pos: true
  r_idx: 3
  r_shift: 2
2533:
- l_pos: true
  l_idx: 0
  r_pos: true
  r_idx: 0
  r_shift: 2
- l_pos: false
  l_idx: 0
  r_pos: true
  r_idx: 1
  r_shift: 4
- l_pos: true
  l_idx: 1
  r_pos: true
  r_idx: 2
  r_shift: 5
2535:
- l_pos: true
  l_idx: 0
  r_pos: true
  r_idx: 0
  r_shift: 2
- l_pos: false
  l_idx: 1
  r_pos: true
  r_idx: 1
  r_shift: 7
- l_pos: false
  l_idx: 1
  r_pos: true
  r_idx: 2
  r_shift: 2
2537:
- l_pos: true
  l_idx: 0
  r_pos: true
  r_idx: 0
  r_shift: 2
- l_pos: false
  l_idx: 0
  r_pos: true
  r_idx: 1
  r_shift: 4
- l_pos: true
  l_idx: 0
  r_pos: true
  r_idx: 2
  r_shift: 2
- l_pos: true
  l_idx: 0
  r_pos: true
  r_idx: 3
  r_shift: 3
2539:
- l_pos: true
  l_idx: 0
  r_pos: true
  r_idx: 0
  r_shift: 2
- l_pos: false
  l_idx: 1
  r_pos: true
  r_idx: 1
  r_shift: 7
- l_pos: false
  l_idx: 0
  r_pos: true
  r_idx: 2
  r_shift: 2
2541:
- l_pos: true
  l_idx: 0
  r_pos: true
  r_idx: 0
  r_shift: 2
- l_pos: false
  l_idx: 1
  r_pos: true
  r_idx: 1
  r_shift: 7
- l_pos: true
  l_idx: 0
  r_pos: true
  r_idx: 2
  r_shift: 2
2543:
- l_pos: true
  l_idx: 0
  r_pos: true
  r_idx: 0
  r_shift: 2
- l_pos: false
  l_idx: 0
  r_pos: true
  r_idx: 1
  r_shift: 5
- l_pos: false
  l_idx: 0
  r_pos: true
  r_idx: 2
  r_shift: 4
2545:
- l_pos: true
  l_idx: 0
  r_pos: true
  r_idx: 0
  r_shift: 2
- l_pos: false
  l_idx: 0
  r_pos: true
  r_idx: 1
  r_shift: 5
- l_pos: true
  l_idx: 0
  r_pos: true
  r_idx: 2
  r_shift: 4
2547:
- l_pos: true
  l_idx: 0
  r_pos: true
  r_idx: 0
  r_shift: 2
- l_pos: false
  l_idx: 0
  r_pos: true
  r_idx: 1
  r_shift: 6
- l_pos: false
  l_idx: 1
  r_pos: true
  r_idx: 2
  r_shift: 3
2549:
- l_pos: true
  l_idx: 0
  r_pos: true
  r_idx: 0
  r_shift: 2
- l_pos: false
  l_idx: 1
  r_pos: true
  r_idx: 1
  r_shift: 8
- l_pos: false
  l_idx: 0
  r_pos: true
  r_idx: 2
  r_shift: 1
2551:
- l_pos: true
  l_idx: 0
  r_pos: true
  r_idx: 0
  r_shift: 2
- l_pos: false
  l_idx: 0
  r_pos: true
  r_idx: 1
  r_shift: 6
- l_pos: false
  l_idx: 0
  r_pos: true
  r_idx: 2
  r_shift: 3
2553:
- l_pos: true
  l_idx: 0
  r_pos: true
  r_idx: 0
  r_shift: 2
- l_pos: false
  l_idx: 0
  r_pos: true
  r_idx: 1
  r_shift: 6
- l_pos: true
  l_idx: 0
  r_pos: true
  r_idx: 2
  r_shift: 3
2555:
- l_pos: true
  l_idx: 0
  r_pos: true
  r_idx: 0
  r_shift: 2
- l_pos: false
  l_idx: 1
  r_pos: true
  r_idx: 1
  r_shift: 9
2557:
- l_pos: true
  l_idx: 0
  r_pos: true
  r_idx: 0
  r_shift: 2
- l_pos: false
  l_idx: 0
  r_pos: true
  r_idx: 1
  r_shift: 7
- l_pos: true
  l_idx: 0
  r_pos: true
  r_idx: 2
  r_shift: 2
2559:
- l_pos: true
  l_idx: 0
  r_pos: true
  r_idx: 0
  r_shift: 2
- l_pos: false
  l_idx: 0
  r_pos: true
  r_idx: 1
  r_shift: 9
".
Definition text_41 : string := "2561:
- l_pos: true
  l_idx: 0
  r_pos: true
  r_idx: 0
  r_shift: 2
- l_pos: true
  l_idx: 0
  r_pos: true
  r_idx: 1
  r_shift: 9
2563:
- l_pos: true
  l_idx: 0
  r_pos: true
  r_idx: 0
  r_shift: 2
- l_pos: true
  l_idx: 0
  r_pos: true
  r_idx: 1
  r_shift: 7
- l_pos: false
  l_idx: 0
  r_pos: true
  r_idx: 2
  r_shift: 2
2565:
- l_pos: true
  l_idx: 0
  r_pos: true
  r_idx: 0
  r_shift: 2
- l_pos: true
  l_idx: 1
  r_pos: true
  r_idx: 1
  r_shift: 9
2567:
- l_pos: true
  l_idx: 0
  r_pos: true
  r_idx: 0
  r_shift: 2
- l_pos: true
  l_idx: 0
  r_pos: true
  r_idx: 1
  r_shift: 6
- l_pos: false
  l_idx: 0
  r_pos: true
  r_idx: 2
  r_shift: 3
2569:
- l_pos: true
  l_idx: 0
  r_pos: true
  r_idx: 0
  r_shift: 2
- l_pos: true
  l_idx: 0
  r_pos: true
  r_idx: 1
  r_shift: 6
- l_pos: true
  l_idx: 0
  r_pos: true
  r_idx: 2
  r_shift: 3
2571:
- l_pos: true
  l_idx: 0
  r_pos: true
  r_idx: 0
  r_shift: 2
- l_pos: true
  l_idx: 1
  r_pos: true
  r_idx: 1
  r_shift: 8
- l_pos: true
  l_idx: 0
  r_pos: true
  r_idx: 2
  r_shift: 1
2573:
- l_pos: true
  l_idx: 0
  r_pos: true
  r_idx: 0
  r_shift: 2
- l_pos: true
  l_idx: 0
  r_pos: true
  r_idx: 1
  r_shift: 6
- l_pos: true
  l_idx: 1
  r_pos: true
  r_idx: 2
  r_shift: 3
2575:
- l_pos: true
  l_idx: 0
  r_pos: true
  r_idx: 0
  r_shift: 2
- l_pos: true
  l_idx: 0
  r_pos: true
  r_idx: 1
  r_shift: 5
- l_pos: false
  l_idx: 0
  r_pos: true
  r_idx: 2
  r_shift: 4
2577:
- l_pos: true
  l_idx: 0
  r_pos: true
  r_idx: 0
  r_shift: 2
- l_pos: true
  l_idx: 0
  r_pos: true
  r_idx: 1
  r_shift: 5
- l_pos: true
  l_idx: 0
  r_pos: true
  r_idx: 2
  r_shift: 4
2579:
- l_pos: true
  l_idx: 0
  r_pos: true
  r_idx: 0
  r_shift: 2
- l_pos: true
  l_idx: 1
  r_pos: true
  r_idx: 1
  r_shift: 7
- l_pos: false
  l_idx: 0
  r_pos: true
  r_idx: 2
  r_shift: 2
2581:
- l_pos: true
  l_idx: 0
  r_pos: true
  r_idx: 0
  r_shift: 2
- l_pos: true
  l_idx: 1
  r_pos: true
  r_idx: 1
  r_shift: 7
- l_pos: true
  l_idx: 0
  r_pos: true
  r_idx: 2
  r_shift: 2
2583:
- l_pos: true
  l_idx: 0
  r_pos: true
  r_idx: 0
  r_shift: 3
- l_pos: true
  l_idx: 1
  r_pos: true
  r_idx: 1
  r_shift: 3
- l_pos: false
  l_idx: 1
  r_pos: true
  r_idx: 2
  r_shift: 5
2585:
- l_pos: true
  l_idx: 0
  r_pos: true
  r_idx: 0
  r_shift: 2
- l_pos: true
  l_idx: 1
  r_pos: true
  r_idx: 1
  r_shift: 7
- l_pos: true
  l_idx: 1
  r_pos: true
  r_idx: 2
  r_shift: 2
2587:
- l_pos: true
  l_idx: 0
  r_pos: true
  r_idx: 0
  r_shift: 2
- l_pos: true
  l_idx: 0
  r_pos: true
  r_idx: 1
  r_shift: 4
- l_pos: false
  l_idx: 1
  r_pos: true
  r_idx: 2
  r_shift: 5
2589:
- l_pos: true
  l_idx: 0
  r_pos: true
  r_idx: 0
  r_shift: 2
- l_pos: true
  l_idx: 0
  r_pos: true
  r_idx: 1
  r_shift: 4
- l_pos: false
  l_idx: 0
  r_pos: true
  r_idx: 2
  r_shift: 3
- l_pos: true
  l_idx: 0
  r_pos: true
  r_idx: 3
  r_shift: 2
2591:
- l_pos: true
  l_idx: 0
  r_pos: true
  r_idx: 0
  r_shift: 2
- l_pos: true
  l_idx: 0
  r_pos: true
  r_idx: 1
  r_shift: 4
- l_pos: false
  l_idx: 0
  r_pos: true
  r_idx: 2
  r_shift: 5
2593:
- l_pos: true
  l_idx: 0
  r_pos: true
  r_idx: 0
  r_shift: 2
- l_pos: true
  l_idx: 0
  r_pos: true
  r_idx: 1
  r_shift: 4
- l_pos: true
  l_idx: 0
  r_pos: true
  r_idx: 2
  r_shift: 5
2595:
- l_pos: true
  l_idx: 0
  r_pos: true
  r_idx: 0
  r_shift: 2
- l_pos: true
  l_idx: 1
  r_pos: true
  r_idx: 1
  r_shift: 6
- l_pos: false
  l_idx: 1
  r_pos: true
  r_idx: 2
  r_shift: 3
2597:
- l_pos: true
  l_idx: 0
  r_pos: true
  r_idx: 0
  r_shift: 2
- l_pos: true
  l_idx: 0
  r_pos: true
  r_idx: 1
  r_shift: 4
- l_pos: true
  l_idx: 1
  r_pos: true
  r_idx: 2
  r_shift: 5
2599:
- l_pos: true
  l_idx: 0
  r_pos: true
  r_idx: 0
  r_shift: 2
- l_pos: true
  l_idx: 1
  r_pos: true
  r_idx: 1
  r_shift: 6
- l_pos: false
  l_idx: 0
  r_pos: true
  r_idx: 2
  r_shift: 3
2601:
- l_pos: true
  l_idx: 0
  r_pos: true
  r_idx: 0
  r_shift: 2
- l_pos: true
  l_idx: 1
  r_pos: true
  r_idx: 1
  r_shift: 6
- l_pos: true
  l_idx: 0
  r_pos: true
  r_idx: 2
  r_shift: 3
2603:
- l_pos: true
  l_idx: 0
  r_pos: true
  r_idx: 0
  r_shift: 2
- l_pos: true
  l_idx: 1
  r_pos: true
  r_idx: 1
  r_shift: 6
- l_pos: true
  l_idx: 0
  r_pos: true
  r_idx: 2
  r_shift: 1
- l_pos: false
  l_idx: 0
  r_pos: true
  r_idx: 3
  r_shift: 2
2605:
- l_pos: true
  l_idx: 0
  r_pos: true
  r_idx: 0
  r_shift: 2
- l_pos: true
  l_idx: 1
  r_pos: true
  r_idx: 1
  r_shift: 6
- l_pos: true
  l_idx: 1
  r_pos: true
  r_idx: 2
  r_shift: 3
2607:
- l_pos: true
  l_idx: 0
  r_pos: true
  r_idx: 0
  r_shift: 5
- l_pos: true
  l_idx: 1
  r_pos: true
  r_idx: 1
  r_shift: 2
- l_pos: false
  l_idx: 1
  r_pos: true
  r_idx: 2
  r_shift: 4
2609:
- l_pos: true
  l_idx: 0
  r_pos: true
  r_idx: 0
  r_shift: 4
- l_pos: true
  l_idx: 1
  r_pos: true
  r_idx: 0
  r_shift: 6
- l_pos: true
  l_idx: 1
  r_pos: true
  r_idx: 2
  r_shift: 5
2611:
- l_pos: true
  l_idx: 0
  r_pos: true
  r_idx: 0
  r_shift: 2
- l_pos: true
  l_idx: 0
  r_pos: true
  r_idx: 1
  r_shift: 4
- l_pos: true
  l_idx: 1
  r_pos: true
  r_idx: 2
  r_shift: 3
- l_pos: false
  l_idx: 0
  r_pos: true
  r_idx: 3
  r_shift: 2
2613:
- l_pos: true
  l_idx: 0
  r_pos: true
  r_idx: 0
  r_shift: 2
- l_pos: true
  l_idx: 0
  r_pos: true
  r_idx: 1
  r_shift: 3
- l_pos: false
  l_idx: 1
  r_pos: true
  r_idx: 2
  r_shift: 5
- l_pos: false
  l_idx: 0
  r_pos: true
  r_idx: 3
  r_shift: 1
2615:
- l_pos: true
  l_idx: 0
  r_pos: true
  r_idx: 0
  r_shift: 3
- l_pos: true
  l_idx: 1
  r_pos: true
  r_idx: 0
  r_shift: 5
- l_pos: false
  l_idx: 1
  r_pos: true
  r_idx: 2
  r_shift: 6
2617:
- l_pos: true
  l_idx: 0
  r_pos: true
  r_idx: 0
  r_shift: 2
- l_pos: true
  l_idx: 0
  r_pos: true
  r_idx: 1
  r_shift: 3
- l_pos: false
  l_idx: 0
  r_pos: true
  r_idx: 2
  r_shift: 3
- l_pos: true
  l_idx: 0
  r_pos: true
  r_idx: 3
  r_shift: 3
2619:
- l_pos: true
  l_idx: 0
  r_pos: true
  r_idx: 0
  r_shift: 2
- l_pos: true
  l_idx: 0
  r_pos: true
  r_idx: 1
  r_shift: 3
- l_pos: false
  l_idx: 1
  r_pos: true
  r_idx: 2
  r_shift: 6
2621:
- l_pos: true
  l_idx: 0
  r_pos: true
  r_idx: 0
  r_shift: 2
- l_pos: true
  l_idx: 0
  r_pos: true
  r_idx: 1
  r_shift: 3
- l_pos: false
  l_idx: 0
  r_pos: true
  r_idx: 2
  r_shift: 4
- l_pos: true
  l_idx: 0
  r_pos: true
  r_idx: 3
  r_shift: 2
2623:
- l_pos: true
  l_idx: 0
  r_pos: true
  r_idx: 0
  r_shift: 2
- l_pos: true
  l_idx: 0
  r_pos: true
  r_idx: 1
  r_shift: 3
- l_pos: false
  l_idx: 0
  r_pos: true
  r_idx: 2
  r_shift: 6
".
Definition text_42 : string := "2625:
- l_pos: true
  l_idx: 0
  r_pos: true
  r_idx: 0
  r_shift: 2
- l_pos: true
  l_idx: 0
  r_pos: true
  r_idx: 1
  r_shift: 3
- l_pos: true
  l_idx: 0
  r_pos: true
  r_idx: 2
  r_shift: 6
2627:
- l_pos: true
  l_idx: 0
  r_pos: true
  r_idx: 0
  r_shift: 2
- l_pos: true
  l_idx: 0
  r_pos: true
  r_idx: 1
  r_shift: 3
- l_pos: true
  l_idx: 0
  r_pos: true
  r_idx: 2
  r_shift: 4
- l_pos: false
  l_idx: 0
  r_pos: true
  r_idx: 3
  r_shift: 2
2629:
- l_pos: true
  l_idx: 0
  r_pos: true
  r_idx: 0
  r_shift: 2
- l_pos: true
  l_idx: 0
  r_pos: true
  r_idx: 1
  r_shift: 3
- l_pos: true
  l_idx: 1
  r_pos: true
  r_idx: 2
  r_shift: 6
2631:
- l_pos: true
  l_idx: 0
  r_pos: true
  r_idx: 0
  r_shift: 2
- l_pos: true
  l_idx: 0
  r_pos: true
  r_idx: 1
  r_shift: 3
- l_pos: true
  l_idx: 0
  r_pos: true
  r_idx: 2
  r_shift: 3
- l_pos: false
  l_idx: 0
  r_pos: true
  r_idx: 3
  r_shift: 3
2633:
- l_pos: true
  l_idx: 0
  r_pos: true
  r_idx: 0
  r_shift: 3
- l_pos: true
  l_idx: 1
  r_pos: true
  r_idx: 0
  r_shift: 5
- l_pos: true
  l_idx: 1
  r_pos: true
  r_idx: 2
  r_shift: 6
2635:
- l_pos: true
  l_idx: 0
  r_pos: true
  r_idx: 0
  r_shift: 2
- l_pos: true
  l_idx: 1
  r_pos: true
  r_idx: 1
  r_shift: 5
- l_pos: false
  l_idx: 1
  r_pos: true
  r_idx: 2
  r_shift: 4
2637:
- l_pos: true
  l_idx: 0
  r_pos: true
  r_idx: 0
  r_shift: 2
- l_pos: true
  l_idx: 1
  r_pos: true
  r_idx: 1
  r_shift: 5
- l_pos: false
  l_idx: 0
  r_pos: true
  r_idx: 2
  r_shift: 2
- l_pos: true
  l_idx: 0
  r_pos: true
  r_idx: 3
  r_shift: 2
2639:
- l_pos: true
  l_idx: 0
  r_pos: true
  r_idx: 0
  r_shift: 2
- l_pos: true
  l_idx: 1
  r_pos: true
  r_idx: 1
  r_shift: 5
- l_pos: false
  l_idx: 0
  r_pos: true
  r_idx: 2
  r_shift: 4
2641:
- l_pos: true
  l_idx: 0
  r_pos: true
  r_idx: 0
  r_shift: 2
- l_pos: true
  l_idx: 1
  r_pos: true
  r_idx: 1
  r_shift: 5
- l_pos: true
  l_idx: 0
  r_pos: true
  r_idx: 2
  r_shift: 4
2643:
- l_pos: true
  l_idx: 0
  r_pos: true
  r_idx: 0
  r_shift: 2
- l_pos: true
  l_idx: 1
  r_pos: true
  r_idx: 1
  r_shift: 5
- l_pos: true
  l_idx: 0
  r_pos: true
  r_idx: 2
  r_shift: 2
- l_pos: false
  l_idx: 0
  r_pos: true
  r_idx: 3
  r_shift: 2
2645:
- l_pos: true
  l_idx: 0
  r_pos: true
  r_idx: 0
  r_shift: 2
- l_pos: true
  l_idx: 1
  r_pos: true
  r_idx: 1
  r_shift: 5
- l_pos: true
  l_idx: 1
  r_pos: true
  r_idx: 2
  r_shift: 4
2647:
- l_pos: true
  l_idx: 0
  r_pos: true
  r_idx: 0
  r_shift: 2
- l_pos: true
  l_idx: 1
  r_pos: true
  r_idx: 1
  r_shift: 5
- l_pos: true
  l_idx: 0
  r_pos: true
  r_idx: 2
  r_shift: 1
- l_pos: false
  l_idx: 0
  r_pos: true
  r_idx: 3
  r_shift: 3
2649:
- l_pos: true
  l_idx: 0
  r_pos: true
  r_idx: 0
  r_shift: 2
- l_pos: true
  l_idx: 1
  r_pos: true
  r_idx: 1
  r_shift: 5
- l_pos: true
  l_idx: 0
  r_pos: true
  r_idx: 2
  r_shift: 1
- l_pos: true
  l_idx: 0
  r_pos: true
  r_idx: 3
  r_shift: 3
2651:
- l_pos: true
  l_idx: 0
  r_pos: true
  r_idx: 0
  r_shift: 2
- l_pos: true
  l_idx: 1
  r_pos: true
  r_idx: 1
  r_shift: 5
- l_pos: true
  l_idx: 1
  r_pos: true
  r_idx: 2
  r_shift: 3
- l_pos: true
  l_idx: 0
  r_pos: true
  r_idx: 3
  r_shift: 1
2653:
- l_pos: true
  l_idx: 0
  r_pos: true
  r_idx: 0
  r_shift: 4
- l_pos: true
  l_idx: 1
  r_pos: true
  r_idx: 0
  r_shift: 2
- l_pos: false
  l_idx: 1
  r_pos: true
  r_idx: 2
  r_shift: 6
- l_pos: false
  l_idx: 0
  r_pos: true
  r_idx: 3
  r_shift: 1
2655:
- l_pos: true
  l_idx: 0
  r_pos: true
  r_idx: 0
  r_shift: 2
- l_pos: true
  l_idx: 0
  r_pos: true
  r_idx: 1
  r_shift: 2
- l_pos: false
  l_idx: 0
  r_pos: true
  r_idx: 2
  r_shift: 2
- l_pos: false
  l_idx: 0
  r_pos: true
  r_idx: 3
  r_shift: 5
2657:
- l_pos: true
  l_idx: 0
  r_pos: true
  r_idx: 0
  r_shift: 5
- l_pos: true
  l_idx: 1
  r_pos: true
  r_idx: 0
  r_shift: 3
- l_pos: true
  l_idx: 1
  r_pos: true
  r_idx: 2
  r_shift: 6
2659:
- l_pos: true
  l_idx: 0
  r_pos: true
  r_idx: 0
  r_shift: 2
- l_pos: true
  l_idx: 1
  r_pos: true
  r_idx: 1
  r_shift: 5
- l_pos: true
  l_idx: 1
  r_pos: true
  r_idx: 2
  r_shift: 2
- l_pos: false
  l_idx: 0
  r_pos: true
  r_idx: 3
  r_shift: 2
2661:
- l_pos: true
  l_idx: 0
  r_pos: true
  r_idx: 0
  r_shift: 2
- l_pos: true
  l_idx: 1
  r_pos: true
  r_idx: 1
  r_shift: 5
- l_pos: true
  l_idx: 1
  r_pos: true
  r_idx: 2
  r_shift: 2
- l_pos: true
  l_idx: 0
  r_pos: true
  r_idx: 3
  r_shift: 2
2663:
- l_pos: true
  l_idx: 0
  r_pos: true
  r_idx: 0
  r_shift: 1
- l_pos: false
  l_idx: 1
  r_pos: true
  r_idx: 1
  r_shift: 3
- l_pos: false
  l_idx: 1
  r_pos: true
  r_idx: 2
  r_shift: 4
- l_pos: false
  l_idx: 0
  r_pos: true
  r_idx: 3
  r_shift: 3
2665:
- l_pos: true
  l_idx: 0
  r_pos: true
  r_idx: 0
  r_shift: 6
- l_pos: true
  l_idx: 1
  r_pos: true
  r_idx: 1
  r_shift: 2
- l_pos: true
  l_idx: 1
  r_pos: true
  r_idx: 2
  r_shift: 3
2667:
- l_pos: false
  l_idx: 0
  r_pos: true
  r_idx: 0
  r_shift: 7
- l_pos: true
  l_idx: 1
  r_pos: true
  r_idx: 1
  r_shift: 2
- l_pos: true
  l_idx: 1
  r_pos: true
  r_idx: 2
  r_shift: 2
2669:
- l_pos: true
  l_idx: 0
  r_pos: true
  r_idx: 0
  r_shift: 2
- l_pos: true
  l_idx: 0
  r_pos: true
  r_idx: 1
  r_shift: 2
- l_pos: false
  l_idx: 1
  r_pos: true
  r_idx: 2
  r_shift: 5
- l_pos: true
  l_idx: 0
  r_pos: true
  r_idx: 3
  r_shift: 2
2671:
- l_pos: true
  l_idx: 0
  r_pos: true
  r_idx: 0
  r_shift: 4
- l_pos: true
  l_idx: 1
  r_pos: true
  r_idx: 0
  r_shift: 2
- l_pos: false
  l_idx: 1
  r_pos: true
  r_idx: 2
  r_shift: 7
2673:
- l_pos: true
  l_idx: 0
  r_pos: true
  r_idx: 0
  r_shift: 5
- l_pos: true
  l_idx: 1
  r_pos: true
  r_idx: 1
  r_shift: 2
- l_pos: true
  l_idx: 1
  r_pos: true
  r_idx: 2
  r_shift: 4
2675:
- l_pos: true
  l_idx: 0
  r_pos: true
  r_idx: 0
  r_shift: 1
- l_pos: false
  l_idx: 1
  r_pos: true
  r_idx: 1
  r_shift: 3
- l_pos: false
  l_idx: 1
  r_pos: true
  r_idx: 2
  r_shift: 5
- l_pos: false
  l_idx: 0
  r_pos: true
  r_idx: 3
  r_shift: 2
2677:
- l_pos: true
  l_idx: 0
  r_pos: true
  r_idx: 0
  r_shift: 1
- l_pos: false
  l_idx: 1
  r_pos: true
  r_idx: 1
  r_shift: 3
- l_pos: false
  l_idx: 1
  r_pos: true
  r_idx: 2
  r_shift: 5
- l_pos: true
  l_idx: 0
  r_pos: true
  r_idx: 3
  r_shift: 2
2679:
- l_pos: true
  l_idx: 0
  r_pos: true
  r_idx: 0
  r_shift: 2
- l_pos: true
  l_idx: 0
  r_pos: true
  r_idx: 1
  r_shift: 2
- l_pos: false
  l_idx: 0
  r_pos: true
  r_idx: 2
  r_shift: 4
- l_pos: false
  l_idx: 0
  r_pos: true
  r_idx: 3
  r_shift: 3
2681:
- l_pos: false
  l_idx: 0
  r_pos: true
  r_idx: 0
  r_shift: 3
- l_pos: true
  l_idx: 1
  r_pos: true
  r_idx: 1
  r_shift: 1
- l_pos: false
  l_idx: 1
  r_pos: true
  r_idx: 2
  r_shift: 7
2683:
- l_pos: true
  l_idx: 0
  r_pos: true
  r_idx: 0
  r_shift: 2
- l_pos: true
  l_idx: 0
  r_pos: true
  r_idx: 1
  r_shift: 2
- l_pos: false
  l_idx: 1
  r_pos: true
  r_idx: 2
  r_shift: 7
2685:
- l_pos: true
  l_idx: 0
  r_pos: true
  r_idx: 0
  r_shift: 1
- l_pos: false
  l_idx: 1
  r_pos: true
  r_idx: 1
  r_shift: 3
- l_pos: false
  l_idx: 1
  r_pos: true
  r_idx: 2
  r_shift: 7
2687:
- l_pos: true
  l_idx: 0
  r_pos: true
  r_idx: 0
  r_shift: 2
- l_pos: true
  l_idx: 0
  r_pos: true
  r_idx: 1
  r_shift: 2
- l_pos: false
  l_idx: 0
  r_pos: true
  r_idx: 2
  r_shift: 7
".
Definition text_43 : string := "2689:
- l_pos: true
  l_idx: 0
  r_pos: true
  r_idx: 0
  r_shift: 2
- l_pos: true
  l_idx: 0
  r_pos: true
  r_idx: 1
  r_shift: 2
- l_pos: true
  l_idx: 0
  r_pos: true
  r_idx: 2
  r_shift: 7
2691:
- l_pos: true
  l_idx: 0
  r_pos: true
  r_idx: 0
  r_shift: 1
- l_pos: false
  l_idx: 1
  r_pos: true
  r_idx: 1
  r_shift: 3
- l_pos: true
  l_idx: 1
  r_pos: true
  r_idx: 2
  r_shift: 7
2693:
- l_pos: true
  l_idx: 0
  r_pos: true
  r_idx: 0
  r_shift: 2
- l_pos: true
  l_idx: 0
  r_pos: true
  r_idx: 1
  r_shift: 2
- l_pos: true
  l_idx: 1
  r_pos: true
  r_idx: 2
  r_shift: 7
2695:
- l_pos: false
  l_idx: 0
  r_pos: true
  r_idx: 0
  r_shift: 3
- l_pos: true
  l_idx: 1
  r_pos: true
  r_idx: 1
  r_shift: 1
- l_pos: true
  l_idx: 1
  r_pos: true
  r_idx: 2
  r_shift: 7
2697:
- l_pos: true
  l_idx: 0
  r_pos: true
  r_idx: 0
  r_shift: 2
- l_pos: true
  l_idx: 0
  r_pos: true
  r_idx: 1
  r_shift: 2
- l_pos: true
  l_idx: 0
  r_pos: true
  r_idx: 2
  r_shift: 4
- l_pos: true
  l_idx: 0
  r_pos: true
  r_idx: 3
  r_shift: 3
2699:
- l_pos: true
  l_idx: 0
  r_pos: true
  r_idx: 0
  r_shift: 1
- l_pos: false
  l_idx: 1
  r_pos: true
  r_idx: 1
  r_shift: 3
- l_pos: true
  l_idx: 1
  r_pos: true
  r_idx: 2
  r_shift: 5
- l_pos: false
  l_idx: 0
  r_pos: true
  r_idx: 3
  r_shift: 2
2701:
- l_pos: true
  l_idx: 0
  r_pos: true
  r_idx: 0
  r_shift: 1
- l_pos: false
  l_idx: 1
  r_pos: true
  r_idx: 1
  r_shift: 3
- l_pos: true
  l_idx: 1
  r_pos: true
  r_idx: 2
  r_shift: 5
- l_pos: true
  l_idx: 0
  r_pos: true
  r_idx: 3
  r_shift: 2
2703:
- l_pos: true
  l_idx: 0
  r_pos: true
  r_idx: 0
  r_shift: 4
- l_pos: true
  l_idx: 1
  r_pos: true
  r_idx: 1
  r_shift: 2
- l_pos: false
  l_idx: 1
  r_pos: true
  r_idx: 2
  r_shift: 5
2705:
- l_pos: true
  l_idx: 0
  r_pos: true
  r_idx: 0
  r_shift: 4
- l_pos: true
  l_idx: 1
  r_pos: true
  r_idx: 0
  r_shift: 2
- l_pos: true
  l_idx: 1
  r_pos: true
  r_idx: 2
  r_shift: 7
2707:
- l_pos: true
  l_idx: 0
  r_pos: true
  r_idx: 0
  r_shift: 2
- l_pos: true
  l_idx: 0
  r_pos: true
  r_idx: 1
  r_shift: 2
- l_pos: true
  l_idx: 1
  r_pos: true
  r_idx: 2
  r_shift: 5
- l_pos: false
  l_idx: 0
  r_pos: true
  r_idx: 3
  r_shift: 2
2709:
- l_pos: true
  l_idx: 0
  r_pos: true
  r_idx: 0
  r_shift: 7
- l_pos: true
  l_idx: 1
  r_pos: true
  r_idx: 1
  r_shift: 2
- l_pos: true
  l_idx: 1
  r_pos: true
  r_idx: 2
  r_shift: 2
2711:
- l_pos: true
  l_idx: 0
  r_pos: true
  r_idx: 0
  r_shift: 2
- l_pos: true
  l_idx: 1
  r_pos: true
  r_idx: 1
  r_shift: 4
- l_pos: false
  l_idx: 0
  r_pos: true
  r_idx: 2
  r_shift: 2
- l_pos: false
  l_idx: 0
  r_pos: true
  r_idx: 3
  r_shift: 3
2713:
- l_pos: true
  l_idx: 0
  r_pos: true
  r_idx: 0
  r_shift: 2
- l_pos: true
  l_idx: 1
  r_pos: true
  r_idx: 1
  r_shift: 4
- l_pos: false
  l_idx: 0
  r_pos: true
  r_idx: 2
  r_shift: 2
- l_pos: true
  l_idx: 0
  r_pos: true
  r_idx: 3
  r_shift: 3
2715:
- l_pos: true
  l_idx: 0
  r_pos: true
  r_idx: 0
  r_shift: 2
- l_pos: true
  l_idx: 1
  r_pos: true
  r_idx: 1
  r_shift: 4
- l_pos: false
  l_idx: 1
  r_pos: true
  r_idx: 2
  r_shift: 5
2717:
- l_pos: true
  l_idx: 0
  r_pos: true
  r_idx: 0
  r_shift: 2
- l_pos: true
  l_idx: 1
  r_pos: true
  r_idx: 1
  r_shift: 4
- l_pos: false
  l_idx: 0
  r_pos: true
  r_idx: 2
  r_shift: 3
- l_pos: true
  l_idx: 0
  r_pos: true
  r_idx: 3
  r_shift: 2
2719:
- l_pos: true
  l_idx: 0
  r_pos: true
  r_idx: 0
  r_shift: 2
- l_pos: true
  l_idx: 1
  r_pos: true
  r_idx: 1
  r_shift: 4
- l_pos: false
  l_idx: 0
  r_pos: true
  r_idx: 2
  r_shift: 5
2721:
- l_pos: true
  l_idx: 0
  r_pos: true
  r_idx: 0
  r_shift: 2
- l_pos: true
  l_idx: 1
  r_pos: true
  r_idx: 1
  r_shift: 4
- l_pos: true
  l_idx: 0
  r_pos: true
  r_idx: 2
  r_shift: 5
2723:
- l_pos: true
  l_idx: 0
  r_pos: true
  r_idx: 0
  r_shift: 2
- l_pos: true
  l_idx: 1
  r_pos: true
  r_idx: 1
  r_shift: 4
- l_pos: true
  l_idx: 0
  r_pos: true
  r_idx: 2
  r_shift: 3
- l_pos: false
  l_idx: 0
  r_pos: true
  r_idx: 3
  r_shift: 2
2725:
- l_pos: true
  l_idx: 0
  r_pos: true
  r_idx: 0
  r_shift: 2
- l_pos: true
  l_idx: 1
  r_pos: true
  r_idx: 1
  r_shift: 4
- l_pos: true
  l_idx: 1
  r_pos: true
  r_idx: 2
  r_shift: 5
2727:
- l_pos: true
  l_idx: 0
  r_pos: true
  r_idx: 0
  r_shift: 2
- l_pos: true
  l_idx: 1
  r_pos: true
  r_idx: 1
  r_shift: 4
- l_pos: true
  l_idx: 0
  r_pos: true
  r_idx: 2
  r_shift: 2
- l_pos: false
  l_idx: 0
  r_pos: true
  r_idx: 3
  r_shift: 3
2729:
- l_pos: true
  l_idx: 0
  r_pos: true
  r_idx: 0
  r_shift: 2
- l_pos: true
  l_idx: 1
  r_pos: true
  r_idx: 1
  r_shift: 4
- l_pos: true
  l_idx: 0
  r_pos: true
  r_idx: 2
  r_shift: 2
- l_pos: true
  l_idx: 0
  r_pos: true
  r_idx: 3
  r_shift: 3
2731:
- l_pos: true
  l_idx: 0
  r_pos: true
  r_idx: 0
  r_shift: 2
- l_pos: true
  l_idx: 1
  r_pos: true
  r_idx: 1
  r_shift: 4
- l_pos: true
  l_idx: 1
  r_pos: true
  r_idx: 2
  r_shift: 4
- l_pos: true
  l_idx: 0
  r_pos: true
  r_idx: 3
  r_shift: 1
2733:
- l_pos: true
  l_idx: 0
  r_pos: true
  r_idx: 0
  r_shift: 1
- l_pos: false
  l_idx: 1
  r_pos: true
  r_idx: 1
  r_shift: 3
- l_pos: true
  l_idx: 1
  r_pos: true
  r_idx: 2
  r_shift: 3
- l_pos: false
  l_idx: 1
  r_pos: true
  r_idx: 3
  r_shift: 4
2735:
- l_pos: true
  l_idx: 0
  r_pos: true
  r_idx: 0
  r_shift: 2
- l_pos: true
  l_idx: 1
  r_pos: true
  r_idx: 1
  r_shift: 4
- l_pos: true
  l_idx: 0
  r_pos: true
  r_idx: 2
  r_shift: 1
- l_pos: false
  l_idx: 0
  r_pos: true
  r_idx: 3
  r_shift: 4
2737:
- l_pos: true
  l_idx: 0
  r_pos: true
  r_idx: 0
  r_shift: 4
- l_pos: true
  l_idx: 1
  r_pos: true
  r_idx: 1
  r_shift: 2
- l_pos: true
  l_idx: 1
  r_pos: true
  r_idx: 2
  r_shift: 5
2739:
- l_pos: true
  l_idx: 0
  r_pos: true
  r_idx: 0
  r_shift: 2
- l_pos: true
  l_idx: 1
  r_pos: true
  r_idx: 1
  r_shift: 4
- l_pos: true
  l_idx: 1
  r_pos: true
  r_idx: 2
  r_shift: 3
- l_pos: false
  l_idx: 0
  r_pos: true
  r_idx: 3
  r_shift: 2
2741:
- l_pos: true
  l_idx: 0
  r_pos: true
  r_idx: 0
  r_shift: 2
- l_pos: true
  l_idx: 1
  r_pos: true
  r_idx: 1
  r_shift: 4
- l_pos: true
  l_idx: 1
  r_pos: true
  r_idx: 2
  r_shift: 3
- l_pos: true
  l_idx: 0
  r_pos: true
  r_idx: 3
  r_shift: 2
2743:
- l_pos: true
  l_idx: 0
  r_pos: true
  r_idx: 0
  r_shift: 3
- l_pos: true
  l_idx: 1
  r_pos: true
  r_idx: 0
  r_shift: 1
- l_pos: false
  l_idx: 1
  r_pos: true
  r_idx: 2
  r_shift: 5
- l_pos: false
  l_idx: 0
  r_pos: true
  r_idx: 3
  r_shift: 3
2745:
- l_pos: true
  l_idx: 0
  r_pos: true
  r_idx: 0
  r_shift: 3
- l_pos: true
  l_idx: 1
  r_pos: true
  r_idx: 0
  r_shift: 1
- l_pos: false
  l_idx: 1
  r_pos: true
  r_idx: 2
  r_shift: 5
- l_pos: true
  l_idx: 0
  r_pos: true
  r_idx: 3
  r_shift: 3
2747:
- l_pos: true
  l_idx: 0
  r_pos: true
  r_idx: 0
  r_shift: 1
- l_pos: true
  l_idx: 0
  r_pos: true
  r_idx: 1
  r_shift: 4
- l_pos: false
  l_idx: 2
  r_pos: true
  r_idx: 2
  r_shift: 3
- l_pos: true
  l_idx: 1
  r_pos: true
  r_idx: 3
  r_shift: 3
2749:
- l_pos: true
  l_idx: 0
  r_pos: true
  r_idx: 0
  r_shift: 1
- l_pos: false
  l_idx: 0
  r_pos: true
  r_idx: 1
  r_shift: 2
- l_pos: false
  l_idx: 0
  r_pos: true
  r_idx: 2
  r_shift: 2
- l_pos: false
  l_idx: 1
  r_pos: true
  r_idx: 3
  r_shift: 6
2751:
- l_pos: true
  l_idx: 0
  r_pos: true
  r_idx: 0
  r_shift: 1
- l_pos: false
  l_idx: 0
  r_pos: true
  r_idx: 1
  r_shift: 2
- l_pos: false
  l_idx: 0
  r_pos: true
  r_idx: 2
  r_shift: 2
- l_pos: false
  l_idx: 0
  r_pos: true
  r_idx: 3
  r_shift: 6
".
Definition text_44 : string := "2753:
- l_pos: true
  l_idx: 0
  r_pos: true
  r_idx: 0
  r_shift: 1
- l_pos: false
  l_idx: 0
  r_pos: true
  r_idx: 1
  r_shift: 2
- l_pos: false
  l_idx: 0
  r_pos: true
  r_idx: 2
  r_shift: 2
- l_pos: true
  l_idx: 0
  r_pos: true
  r_idx: 3
  r_shift: 6
2755:
- l_pos: true
  l_idx: 0
  r_pos: true
  r_idx: 0
  r_shift: 4
- l_pos: true
  l_idx: 1
  r_pos: true
  r_idx: 0
  r_shift: 2
- l_pos: true
  l_idx: 1
  r_pos: true
  r_idx: 2
  r_shift: 5
- l_pos: false
  l_idx: 0
  r_pos: true
  r_idx: 3
  r_shift: 2
2757:
- l_pos: true
  l_idx: 0
  r_pos: true
  r_idx: 0
  r_shift: 4
- l_pos: true
  l_idx: 1
  r_pos: true
  r_idx: 0
  r_shift: 2
- l_pos: true
  l_idx: 1
  r_pos: true
  r_idx: 2
  r_shift: 5
- l_pos: true
  l_idx: 0
  r_pos: true
  r_idx: 3
  r_shift: 2
2759:
- l_pos: true
  l_idx: 0
  r_pos: true
  r_idx: 0
  r_shift: 2
- l_pos: true
  l_idx: 1
  r_pos: true
  r_idx: 1
  r_shift: 4
- l_pos: true
  l_idx: 1
  r_pos: true
  r_idx: 2
  r_shift: 2
- l_pos: false
  l_idx: 0
  r_pos: true
  r_idx: 3
  r_shift: 3
2761:
- l_pos: true
  l_idx: 0
  r_pos: true
  r_idx: 0
  r_shift: 2
- l_pos: true
  l_idx: 1
  r_pos: true
  r_idx: 1
  r_shift: 4
- l_pos: true
  l_idx: 1
  r_pos: true
  r_idx: 2
  r_shift: 2
- l_pos: true
  l_idx: 0
  r_pos: true
  r_idx: 3
  r_shift: 3
2763:
- l_pos: true
  l_idx: 0
  r_pos: true
  r_idx: 0
  r_shift: 1
- l_pos: false
  l_idx: 0
  r_pos: true
  r_idx: 1
  r_shift: 3
- l_pos: false
  l_idx: 2
  r_pos: true
  r_idx: 2
  r_shift: 4
- l_pos: true
  l_idx: 1
  r_pos: true
  r_idx: 3
  r_shift: 3
2765:
- l_pos: true
  l_idx: 0
  r_pos: true
  r_idx: 0
  r_shift: 1
- l_pos: false
  l_idx: 0
  r_pos: true
  r_idx: 1
  r_shift: 2
- l_pos: false
  l_idx: 1
  r_pos: true
  r_idx: 2
  r_shift: 4
- l_pos: false
  l_idx: 1
  r_pos: true
  r_idx: 3
  r_shift: 4
2767:
- l_pos: true
  l_idx: 0
  r_pos: true
  r_idx: 0
  r_shift: 1
- l_pos: false
  l_idx: 0
  r_pos: true
  r_idx: 1
  r_shift: 2
- l_pos: false
  l_idx: 1
  r_pos: true
  r_idx: 2
  r_shift: 4
- l_pos: false
  l_idx: 0
  r_pos: true
  r_idx: 3
  r_shift: 4
2769:
- l_pos: true
  l_idx: 0
  r_pos: true
  r_idx: 0
  r_shift: 1
- l_pos: false
  l_idx: 0
  r_pos: true
  r_idx: 1
  r_shift: 2
- l_pos: false
  l_idx: 1
  r_pos: true
  r_idx: 2
  r_shift: 4
- l_pos: true
  l_idx: 0
  r_pos: true
  r_idx: 3
  r_shift: 4
2771:
- l_pos: true
  l_idx: 0
  r_pos: true
  r_idx: 0
  r_shift: 5
- l_pos: true
  l_idx: 1
  r_pos: true
  r_idx: 1
  r_shift: 2
- l_pos: true
  l_idx: 1
  r_pos: true
  r_idx: 2
  r_shift: 2
- l_pos: false
  l_idx: 0
  r_pos: true
  r_idx: 3
  r_shift: 2
2773:
- l_pos: true
  l_idx: 0
  r_pos: true
  r_idx: 0
  r_shift: 5
- l_pos: true
  l_idx: 1
  r_pos: true
  r_idx: 1
  r_shift: 2
- l_pos: true
  l_idx: 1
  r_pos: true
  r_idx: 2
  r_shift: 2
- l_pos: true
  l_idx: 0
  r_pos: true
  r_idx: 3
  r_shift: 2
2775:
- l_pos: true
  l_idx: 0
  r_pos: true
  r_idx: 0
  r_shift: 2
- l_pos: true
  l_idx: 0
  r_pos: true
  r_idx: 1
  r_shift: 1
- l_pos: false
  l_idx: 1
  r_pos: true
  r_idx: 2
  r_shift: 5
- l_pos: false
  l_idx: 0
  r_pos: true
  r_idx: 3
  r_shift: 3
2777:
- l_pos: true
  l_idx: 0
  r_pos: true
  r_idx: 0
  r_shift: 2
- l_pos: true
  l_idx: 0
  r_pos: true
  r_idx: 1
  r_shift: 1
- l_pos: false
  l_idx: 1
  r_pos: true
  r_idx: 2
  r_shift: 5
- l_pos: true
  l_idx: 0
  r_pos: true
  r_idx: 3
  r_shift: 3
2779:
- l_pos: true
  l_idx: 0
  r_pos: true
  r_idx: 0
  r_shift: 3
- l_pos: true
  l_idx: 1
  r_pos: true
  r_idx: 0
  r_shift: 1
- l_pos: false
  l_idx: 1
  r_pos: true
  r_idx: 2
  r_shift: 6
- l_pos: false
  l_idx: 0
  r_pos: true
  r_idx: 3
  r_shift: 2
2781:
- l_pos: true
  l_idx: 0
  r_pos: true
  r_idx: 0
  r_shift: 3
- l_pos: true
  l_idx: 1
  r_pos: true
  r_idx: 0
  r_shift: 1
- l_pos: false
  l_idx: 1
  r_pos: true
  r_idx: 2
  r_shift: 6
- l_pos: true
  l_idx: 0
  r_pos: true
  r_idx: 3
  r_shift: 2
2783:
- l_pos: true
  l_idx: 0
  r_pos: true
  r_idx: 0
  r_shift: 1
- l_pos: false
  l_idx: 0
  r_pos: true
  r_idx: 1
  r_shift: 2
- l_pos: false
  l_idx: 0
  r_pos: true
  r_idx: 2
  r_shift: 3
- l_pos: false
  l_idx: 0
  r_pos: true
  r_idx: 3
  r_shift: 5
2785:
- l_pos: true
  l_idx: 0
  r_pos: true
  r_idx: 0
  r_shift: 1
- l_pos: false
  l_idx: 0
  r_pos: true
  r_idx: 1
  r_shift: 2
- l_pos: false
  l_idx: 0
  r_pos: true
  r_idx: 2
  r_shift: 3
- l_pos: true
  l_idx: 0
  r_pos: true
  r_idx: 3
  r_shift: 5
2787:
- l_pos: false
  l_idx: 0
  r_pos: true
  r_idx: 0
  r_shift: 3
- l_pos: true
  l_idx: 1
  r_pos: true
  r_idx: 0
  r_shift: 2
- l_pos: false
  l_idx: 1
  r_pos: true
  r_idx: 2
  r_shift: 6
- l_pos: false
  l_idx: 0
  r_pos: true
  r_idx: 3
  r_shift: 2
2789:
- l_pos: false
  l_idx: 0
  r_pos: true
  r_idx: 0
  r_shift: 3
- l_pos: true
  l_idx: 1
  r_pos: true
  r_idx: 0
  r_shift: 2
- l_pos: false
  l_idx: 1
  r_pos: true
  r_idx: 2
  r_shift: 6
- l_pos: true
  l_idx: 0
  r_pos: true
  r_idx: 3
  r_shift: 2
2791:
- l_pos: true
  l_idx: 0
  r_pos: true
  r_idx: 0
  r_shift: 1
- l_pos: false
  l_idx: 0
  r_pos: true
  r_idx: 1
  r_shift: 2
- l_pos: false
  l_idx: 1
  r_pos: true
  r_idx: 2
  r_shift: 5
- l_pos: false
  l_idx: 0
  r_pos: true
  r_idx: 3
  r_shift: 3
2793:
- l_pos: true
  l_idx: 0
  r_pos: true
  r_idx: 0
  r_shift: 1
- l_pos: false
  l_idx: 0
  r_pos: true
  r_idx: 1
  r_shift: 2
- l_pos: false
  l_idx: 1
  r_pos: true
  r_idx: 2
  r_shift: 5
- l_pos: true
  l_idx: 0
  r_pos: true
  r_idx: 3
  r_shift: 3
2795:
- l_pos: true
  l_idx: 0
  r_pos: true
  r_idx: 0
  r_shift: 2
- l_pos: true
  l_idx: 0
  r_pos: true
  r_idx: 1
  r_shift: 1
- l_pos: false
  l_idx: 1
  r_pos: true
  r_idx: 2
  r_shift: 6
- l_pos: false
  l_idx: 0
  r_pos: true
  r_idx: 3
  r_shift: 2
2797:
- l_pos: true
  l_idx: 0
  r_pos: true
  r_idx: 0
  r_shift: 2
- l_pos: true
  l_idx: 0
  r_pos: true
  r_idx: 1
  r_shift: 1
- l_pos: false
  l_idx: 1
  r_pos: true
  r_idx: 2
  r_shift: 6
- l_pos: true
  l_idx: 0
  r_pos: true
  r_idx: 3
  r_shift: 2
2799:
- l_pos: true
  l_idx: 0
  r_pos: true
  r_idx: 0
  r_shift: 1
- l_pos: false
  l_idx: 0
  r_pos: true
  r_idx: 1
  r_shift: 2
- l_pos: false
  l_idx: 0
  r_pos: true
  r_idx: 2
  r_shift: 4
- l_pos: false
  l_idx: 0
  r_pos: true
  r_idx: 3
  r_shift: 4
2801:
- l_pos: false
  l_idx: 0
  r_pos: true
  r_idx: 0
  r_shift: 4
- l_pos: true
  l_idx: 1
  r_pos: false
  r_idx: 0
  r_shift: 2
- l_pos: false
  l_idx: 1
  r_pos: true
  r_idx: 2
  r_shift: 8
2803:
- l_pos: true
  l_idx: 0
  r_pos: true
  r_idx: 0
  r_shift: 1
- l_pos: false
  l_idx: 0
  r_pos: true
  r_idx: 1
  r_shift: 2
- l_pos: false
  l_idx: 1
  r_pos: true
  r_idx: 2
  r_shift: 6
- l_pos: false
  l_idx: 0
  r_pos: true
  r_idx: 3
  r_shift: 2
2805:
- l_pos: false
  l_idx: 0
  r_pos: true
  r_idx: 0
  r_shift: 8
- l_pos: true
  l_idx: 1
  r_pos: true
  r_idx: 1
  r_shift: 1
- l_pos: false
  l_idx: 1
  r_pos: true
  r_idx: 2
  r_shift: 2
2807:
- l_pos: true
  l_idx: 0
  r_pos: true
  r_idx: 0
  r_shift: 3
- l_pos: true
  l_idx: 1
  r_pos: true
  r_idx: 0
  r_shift: 1
- l_pos: false
  l_idx: 1
  r_pos: true
  r_idx: 2
  r_shift: 8
2809:
- l_pos: false
  l_idx: 0
  r_pos: true
  r_idx: 0
  r_shift: 3
- l_pos: true
  l_idx: 1
  r_pos: true
  r_idx: 0
  r_shift: 2
- l_pos: false
  l_idx: 1
  r_pos: true
  r_idx: 2
  r_shift: 8
2811:
- l_pos: true
  l_idx: 0
  r_pos: true
  r_idx: 0
  r_shift: 2
- l_pos: true
  l_idx: 0
  r_pos: true
  r_idx: 1
  r_shift: 1
- l_pos: false
  l_idx: 1
  r_pos: true
  r_idx: 2
  r_shift: 8
2813:
- l_pos: true
  l_idx: 0
  r_pos: true
  r_idx: 0
  r_shift: 1
- l_pos: false
  l_idx: 0
  r_pos: true
  r_idx: 1
  r_shift: 2
- l_pos: false
  l_idx: 1
  r_pos: true
  r_idx: 2
  r_shift: 8
2815:
- l_pos: true
  l_idx: 0
  r_pos: true
  r_idx: 0
  r_shift: 1
- l_pos: false
  l_idx: 0
  r_pos: true
  r_idx: 1
  r_shift: 2
- l_pos: false
  l_idx: 0
  r_pos: true
  r_idx: 2
  r_shift: 8
".
Definition text_45 : string := "2817:
- l_pos: true
  l_idx: 0
  r_pos: true
  r_idx: 0
  r_shift: 1
- l_pos: false
  l_idx: 0
  r_pos: true
  r_idx: 1
  r_shift: 2
- l_pos: true
  l_idx: 0
  r_pos: true
  r_idx: 2
  r_shift: 8
2819:
- l_pos: true
  l_idx: 0
  r_pos: true
  r_idx: 0
  r_shift: 1
- l_pos: false
  l_idx: 0
  r_pos: true
  r_idx: 1
  r_shift: 2
- l_pos: true
  l_idx: 1
  r_pos: true
  r_idx: 2
  r_shift: 8
2821:
- l_pos: true
  l_idx: 0
  r_pos: true
  r_idx: 0
  r_shift: 2
- l_pos: true
  l_idx: 0
  r_pos: true
  r_idx: 1
  r_shift: 1
- l_pos: true
  l_idx: 1
  r_pos: true
  r_idx: 2
  r_shift: 8
2823:
- l_pos: false
  l_idx: 0
  r_pos: true
  r_idx: 0
  r_shift: 3
- l_pos: true
  l_idx: 1
  r_pos: true
  r_idx: 0
  r_shift: 2
- l_pos: true
  l_idx: 1
  r_pos: true
  r_idx: 2
  r_shift: 8
2825:
- l_pos: true
  l_idx: 0
  r_pos: true
  r_idx: 0
  r_shift: 3
- l_pos: true
  l_idx: 1
  r_pos: true
  r_idx: 0
  r_shift: 1
- l_pos: true
  l_idx: 1
  r_pos: true
  r_idx: 2
  r_shift: 8
2827:
- l_pos: true
  l_idx: 0
  r_pos: true
  r_idx: 0
  r_shift: 8
- l_pos: true
  l_idx: 1
  r_pos: true
  r_idx: 1
  r_shift: 1
- l_pos: false
  l_idx: 1
  r_pos: true
  r_idx: 2
  r_shift: 2
2829:
- l_pos: true
  l_idx: 0
  r_pos: true
  r_idx: 0
  r_shift: 1
- l_pos: false
  l_idx: 0
  r_pos: true
  r_idx: 1
  r_shift: 2
- l_pos: true
  l_idx: 1
  r_pos: true
  r_idx: 2
  r_shift: 6
- l_pos: true
  l_idx: 0
  r_pos: true
  r_idx: 3
  r_shift: 2
2831:
- l_pos: false
  l_idx: 0
  r_pos: true
  r_idx: 0
  r_shift: 4
- l_pos: true
  l_idx: 1
  r_pos: false
  r_idx: 0
  r_shift: 2
- l_pos: true
  l_idx: 1
  r_pos: true
  r_idx: 2
  r_shift: 8
2833:
- l_pos: true
  l_idx: 0
  r_pos: true
  r_idx: 0
  r_shift: 1
- l_pos: false
  l_idx: 0
  r_pos: true
  r_idx: 1
  r_shift: 2
- l_pos: true
  l_idx: 0
  r_pos: true
  r_idx: 2
  r_shift: 4
- l_pos: true
  l_idx: 0
  r_pos: true
  r_idx: 3
  r_shift: 4
2835:
- l_pos: true
  l_idx: 0
  r_pos: true
  r_idx: 0
  r_shift: 1
- l_pos: false
  l_idx: 1
  r_pos: true
  r_idx: 1
  r_shift: 4
- l_pos: false
  l_idx: 2
  r_pos: true
  r_idx: 2
  r_shift: 6
2837:
- l_pos: true
  l_idx: 0
  r_pos: true
  r_idx: 0
  r_shift: 2
- l_pos: true
  l_idx: 0
  r_pos: true
  r_idx: 1
  r_shift: 1
- l_pos: true
  l_idx: 1
  r_pos: true
  r_idx: 2
  r_shift: 6
- l_pos: true
  l_idx: 0
  r_pos: true
  r_idx: 3
  r_shift: 2
2839:
- l_pos: true
  l_idx: 0
  r_pos: true
  r_idx: 0
  r_shift: 1
- l_pos: false
  l_idx: 0
  r_pos: true
  r_idx: 1
  r_shift: 2
- l_pos: true
  l_idx: 1
  r_pos: true
  r_idx: 2
  r_shift: 5
- l_pos: false
  l_idx: 0
  r_pos: true
  r_idx: 3
  r_shift: 3
2841:
- l_pos: true
  l_idx: 0
  r_pos: true
  r_idx: 0
  r_shift: 1
- l_pos: false
  l_idx: 0
  r_pos: true
  r_idx: 1
  r_shift: 2
- l_pos: true
  l_idx: 1
  r_pos: true
  r_idx: 2
  r_shift: 5
- l_pos: true
  l_idx: 0
  r_pos: true
  r_idx: 3
  r_shift: 3
2843:
- l_pos: true
  l_idx: 0
  r_pos: true
  r_idx: 0
  r_shift: 3
- l_pos: true
  l_idx: 1
  r_pos: true
  r_idx: 1
  r_shift: 2
- l_pos: false
  l_idx: 1
  r_pos: true
  r_idx: 2
  r_shift: 4
- l_pos: false
  l_idx: 0
  r_pos: true
  r_idx: 3
  r_shift: 2
2845:
- l_pos: true
  l_idx: 0
  r_pos: true
  r_idx: 0
  r_shift: 3
- l_pos: true
  l_idx: 1
  r_pos: true
  r_idx: 1
  r_shift: 2
- l_pos: false
  l_idx: 1
  r_pos: true
  r_idx: 2
  r_shift: 4
- l_pos: true
  l_idx: 0
  r_pos: true
  r_idx: 3
  r_shift: 2
2847:
- l_pos: true
  l_idx: 0
  r_pos: true
  r_idx: 0
  r_shift: 1
- l_pos: false
  l_idx: 0
  r_pos: true
  r_idx: 1
  r_shift: 2
- l_pos: true
  l_idx: 0
  r_pos: true
  r_idx: 2
  r_shift: 3
- l_pos: false
  l_idx: 0
  r_pos: true
  r_idx: 3
  r_shift: 5
2849:
- l_pos: true
  l_idx: 0
  r_pos: true
  r_idx: 0
  r_shift: 1
- l_pos: false
  l_idx: 0
  r_pos: true
  r_idx: 1
  r_shift: 2
- l_pos: true
  l_idx: 0
  r_pos: true
  r_idx: 2
  r_shift: 3
- l_pos: true
  l_idx: 0
  r_pos: true
  r_idx: 3
  r_shift: 5
2851:
- l_pos: true
  l_idx: 0
  r_pos: true
  r_idx: 0
  r_shift: 3
- l_pos: true
  l_idx: 1
  r_pos: true
  r_idx: 0
  r_shift: 1
- l_pos: true
  l_idx: 1
  r_pos: true
  r_idx: 2
  r_shift: 6
- l_pos: false
  l_idx: 0
  r_pos: true
  r_idx: 3
  r_shift: 2
2853:
- l_pos: true
  l_idx: 0
  r_pos: true
  r_idx: 0
  r_shift: 3
- l_pos: true
  l_idx: 1
  r_pos: true
  r_idx: 0
  r_shift: 1
- l_pos: true
  l_idx: 1
  r_pos: true
  r_idx: 2
  r_shift: 6
- l_pos: true
  l_idx: 0
  r_pos: true
  r_idx: 3
  r_shift: 2
2855:
- l_pos: true
  l_idx: 0
  r_pos: true
  r_idx: 0
  r_shift: 1
- l_pos: false
  l_idx: 1
  r_pos: true
  r_idx: 1
  r_shift: 4
- l_pos: false
  l_idx: 1
  r_pos: true
  r_idx: 2
  r_shift: 3
- l_pos: false
  l_idx: 0
  r_pos: true
  r_idx: 3
  r_shift: 3
2857:
- l_pos: true
  l_idx: 0
  r_pos: true
  r_idx: 0
  r_shift: 1
- l_pos: false
  l_idx: 1
  r_pos: true
  r_idx: 1
  r_shift: 4
- l_pos: false
  l_idx: 1
  r_pos: true
  r_idx: 2
  r_shift: 3
- l_pos: true
  l_idx: 0
  r_pos: true
  r_idx: 3
  r_shift: 3
2859:
- l_pos: true
  l_idx: 0
  r_pos: true
  r_idx: 0
  r_shift: 2
- l_pos: true
  l_idx: 1
  r_pos: true
  r_idx: 1
  r_shift: 3
- l_pos: false
  l_idx: 1
  r_pos: true
  r_idx: 2
  r_shift: 4
- l_pos: false
  l_idx: 0
  r_pos: true
  r_idx: 3
  r_shift: 2
2861:
- l_pos: true
  l_idx: 0
  r_pos: true
  r_idx: 0
  r_shift: 2
- l_pos: true
  l_idx: 1
  r_pos: true
  r_idx: 1
  r_shift: 3
- l_pos: false
  l_idx: 1
  r_pos: true
  r_idx: 2
  r_shift: 4
- l_pos: true
  l_idx: 0
  r_pos: true
  r_idx: 3
  r_shift: 2
2863:
- l_pos: true
  l_idx: 0
  r_pos: true
  r_idx: 0
  r_shift: 1
- l_pos: false
  l_idx: 1
  r_pos: true
  r_idx: 1
  r_shift: 4
- l_pos: false
  l_idx: 0
  r_pos: true
  r_idx: 2
  r_shift: 2
- l_pos: false
  l_idx: 0
  r_pos: true
  r_idx: 3
  r_shift: 4
2865:
- l_pos: false
  l_idx: 0
  r_pos: true
  r_idx: 0
  r_shift: 4
- l_pos: true
  l_idx: 1
  r_pos: true
  r_idx: 1
  r_shift: 1
- l_pos: false
  l_idx: 1
  r_pos: true
  r_idx: 2
  r_shift: 6
2867:
- l_pos: true
  l_idx: 0
  r_pos: true
  r_idx: 0
  r_shift: 1
- l_pos: false
  l_idx: 1
  r_pos: true
  r_idx: 1
  r_shift: 4
- l_pos: false
  l_idx: 1
  r_pos: true
  r_idx: 2
  r_shift: 4
- l_pos: false
  l_idx: 0
  r_pos: true
  r_idx: 3
  r_shift: 2
2869:
- l_pos: true
  l_idx: 0
  r_pos: true
  r_idx: 0
  r_shift: 1
- l_pos: false
  l_idx: 1
  r_pos: true
  r_idx: 1
  r_shift: 4
- l_pos: false
  l_idx: 1
  r_pos: true
  r_idx: 2
  r_shift: 4
- l_pos: true
  l_idx: 0
  r_pos: true
  r_idx: 3
  r_shift: 2
2871:
- l_pos: true
  l_idx: 0
  r_pos: true
  r_idx: 0
  r_shift: 3
- l_pos: true
  l_idx: 1
  r_pos: true
  r_idx: 1
  r_shift: 2
- l_pos: false
  l_idx: 1
  r_pos: true
  r_idx: 2
  r_shift: 6
2873:
- l_pos: true
  l_idx: 0
  r_pos: true
  r_idx: 0
  r_shift: 1
- l_pos: false
  l_idx: 1
  r_pos: true
  r_idx: 1
  r_shift: 4
- l_pos: false
  l_idx: 0
  r_pos: true
  r_idx: 2
  r_shift: 3
- l_pos: true
  l_idx: 0
  r_pos: true
  r_idx: 3
  r_shift: 3
2875:
- l_pos: true
  l_idx: 0
  r_pos: true
  r_idx: 0
  r_shift: 2
- l_pos: true
  l_idx: 1
  r_pos: true
  r_idx: 1
  r_shift: 3
- l_pos: false
  l_idx: 1
  r_pos: true
  r_idx: 2
  r_shift: 6
2877:
- l_pos: true
  l_idx: 0
  r_pos: true
  r_idx: 0
  r_shift: 1
- l_pos: false
  l_idx: 1
  r_pos: true
  r_idx: 1
  r_shift: 4
- l_pos: false
  l_idx: 1
  r_pos: true
  r_idx: 2
  r_shift: 6
2879:
- l_pos: true
  l_idx: 0
  r_pos: true
  r_idx: 0
  r_shift: 1
- l_pos: false
  l_idx: 1
  r_pos: true
  r_idx: 1
  r_shift: 4
- l_pos: false
  l_idx: 0
  r_pos: true
  r_idx: 2
  r_shift: 6
".
Definition text_46 : string := "2881:
- l_pos: true
  l_idx: 0
  r_pos: true
  r_idx: 0
  r_shift: 1
- l_pos: false
  l_idx: 1
  r_pos: true
  r_idx: 1
  r_shift: 4
- l_pos: true
  l_idx: 0
  r_pos: true
  r_idx: 2
  r_shift: 6
2883:
- l_pos: true
  l_idx: 0
  r_pos: true
  r_idx: 0
  r_shift: 1
- l_pos: false
  l_idx: 1
  r_pos: true
  r_idx: 1
  r_shift: 4
- l_pos: true
  l_idx: 1
  r_pos: true
  r_idx: 2
  r_shift: 6
2885:
- l_pos: true
  l_idx: 0
  r_pos: true
  r_idx: 0
  r_shift: 2
- l_pos: true
  l_idx: 1
  r_pos: true
  r_idx: 1
  r_shift: 3
- l_pos: true
  l_idx: 1
  r_pos: true
  r_idx: 2
  r_shift: 6
2887:
- l_pos: true
  l_idx: 0
  r_pos: true
  r_idx: 0
  r_shift: 1
- l_pos: false
  l_idx: 1
  r_pos: true
  r_idx: 1
  r_shift: 4
- l_pos: true
  l_idx: 0
  r_pos: true
  r_idx: 2
  r_shift: 3
- l_pos: false
  l_idx: 0
  r_pos: true
  r_idx: 3
  r_shift: 3
2889:
- l_pos: true
  l_idx: 0
  r_pos: true
  r_idx: 0
  r_shift: 3
- l_pos: true
  l_idx: 1
  r_pos: true
  r_idx: 1
  r_shift: 2
- l_pos: true
  l_idx: 1
  r_pos: true
  r_idx: 2
  r_shift: 6
2891:
- l_pos: true
  l_idx: 0
  r_pos: true
  r_idx: 0
  r_shift: 1
- l_pos: false
  l_idx: 1
  r_pos: true
  r_idx: 1
  r_shift: 4
- l_pos: true
  l_idx: 1
  r_pos: true
  r_idx: 2
  r_shift: 4
- l_pos: false
  l_idx: 0
  r_pos: true
  r_idx: 3
  r_shift: 2
2893:
- l_pos: true
  l_idx: 0
  r_pos: true
  r_idx: 0
  r_shift: 1
- l_pos: false
  l_idx: 1
  r_pos: true
  r_idx: 1
  r_shift: 4
- l_pos: true
  l_idx: 1
  r_pos: true
  r_idx: 2
  r_shift: 4
- l_pos: true
  l_idx: 0
  r_pos: true
  r_idx: 3
  r_shift: 2
2895:
- l_pos: false
  l_idx: 0
  r_pos: true
  r_idx: 0
  r_shift: 4
- l_pos: true
  l_idx: 1
  r_pos: true
  r_idx: 1
  r_shift: 1
- l_pos: true
  l_idx: 1
  r_pos: true
  r_idx: 2
  r_shift: 6
2897:
- l_pos: true
  l_idx: 0
  r_pos: true
  r_idx: 0
  r_shift: 1
- l_pos: false
  l_idx: 1
  r_pos: true
  r_idx: 1
  r_shift: 4
- l_pos: true
  l_idx: 0
  r_pos: true
  r_idx: 2
  r_shift: 2
- l_pos: true
  l_idx: 0
  r_pos: true
  r_idx: 3
  r_shift: 4
2899:
- l_pos: true
  l_idx: 0
  r_pos: true
  r_idx: 0
  r_shift: 2
- l_pos: true
  l_idx: 1
  r_pos: true
  r_idx: 1
  r_shift: 3
- l_pos: true
  l_idx: 1
  r_pos: true
  r_idx: 2
  r_shift: 4
- l_pos: false
  l_idx: 0
  r_pos: true
  r_idx: 3
  r_shift: 2
2901:
- l_pos: true
  l_idx: 0
  r_pos: true
  r_idx: 0
  r_shift: 2
- l_pos: true
  l_idx: 1
  r_pos: true
  r_idx: 1
  r_shift: 3
- l_pos: true
  l_idx: 1
  r_pos: true
  r_idx: 2
  r_shift: 4
- l_pos: true
  l_idx: 0
  r_pos: true
  r_idx: 3
  r_shift: 2
2903:
- l_pos: true
  l_idx: 0
  r_pos: true
  r_idx: 0
  r_shift: 1
- l_pos: false
  l_idx: 1
  r_pos: true
  r_idx: 1
  r_shift: 4
- l_pos: true
  l_idx: 1
  r_pos: true
  r_idx: 2
  r_shift: 3
- l_pos: false
  l_idx: 0
  r_pos: true
  r_idx: 3
  r_shift: 3
2905:
- l_pos: true
  l_idx: 0
  r_pos: true
  r_idx: 0
  r_shift: 1
- l_pos: false
  l_idx: 1
  r_pos: true
  r_idx: 1
  r_shift: 4
- l_pos: true
  l_idx: 1
  r_pos: true
  r_idx: 2
  r_shift: 3
- l_pos: true
  l_idx: 0
  r_pos: true
  r_idx: 3
  r_shift: 3
2907:
- l_pos: true
  l_idx: 0
  r_pos: true
  r_idx: 0
  r_shift: 3
- l_pos: false
  l_idx: 1
  r_pos: true
  r_idx: 0
  r_shift: 5
- l_pos: false
  l_idx: 1
  r_pos: true
  r_idx: 2
  r_shift: 5
- l_pos: false
  l_idx: 0
  r_pos: true
  r_idx: 3
  r_shift: 2
2909:
- l_pos: true
  l_idx: 0
  r_pos: true
  r_idx: 0
  r_shift: 3
- l_pos: false
  l_idx: 1
  r_pos: true
  r_idx: 0
  r_shift: 5
- l_pos: false
  l_idx: 1
  r_pos: true
  r_idx: 2
  r_shift: 5
- l_pos: true
  l_idx: 0
  r_pos: true
  r_idx: 3
  r_shift: 2
2911:
- l_pos: true
  l_idx: 0
  r_pos: true
  r_idx: 0
  r_shift: 1
- l_pos: false
  l_idx: 0
  r_pos: true
  r_idx: 1
  r_shift: 3
- l_pos: false
  l_idx: 0
  r_pos: true
  r_idx: 2
  r_shift: 2
- l_pos: false
  l_idx: 0
  r_pos: true
  r_idx: 3
  r_shift: 5
2913:
- l_pos: false
  l_idx: 0
  r_pos: true
  r_idx: 0
  r_shift: 5
- l_pos: true
  l_idx: 1
  r_pos: false
  r_idx: 0
  r_shift: 3
- l_pos: false
  l_idx: 1
  r_pos: true
  r_idx: 2
  r_shift: 7
2915:
- l_pos: true
  l_idx: 0
  r_pos: true
  r_idx: 0
  r_shift: 3
- l_pos: true
  l_idx: 1
  r_pos: true
  r_idx: 1
  r_shift: 2
- l_pos: true
  l_idx: 1
  r_pos: true
  r_idx: 2
  r_shift: 4
- l_pos: false
  l_idx: 0
  r_pos: true
  r_idx: 3
  r_shift: 2
2917:
- l_pos: true
  l_idx: 0
  r_pos: true
  r_idx: 0
  r_shift: 3
- l_pos: true
  l_idx: 1
  r_pos: true
  r_idx: 1
  r_shift: 2
- l_pos: true
  l_idx: 1
  r_pos: true
  r_idx: 2
  r_shift: 4
- l_pos: true
  l_idx: 0
  r_pos: true
  r_idx: 3
  r_shift: 2
2919:
- l_pos: true
  l_idx: 0
  r_pos: true
  r_idx: 0
  r_shift: 1
- l_pos: false
  l_idx: 0
  r_pos: true
  r_idx: 1
  r_shift: 3
- l_pos: false
  l_idx: 1
  r_pos: true
  r_idx: 2
  r_shift: 4
- l_pos: false
  l_idx: 0
  r_pos: true
  r_idx: 3
  r_shift: 3
2921:
- l_pos: false
  l_idx: 0
  r_pos: true
  r_idx: 0
  r_shift: 7
- l_pos: true
  l_idx: 1
  r_pos: true
  r_idx: 1
  r_shift: 1
- l_pos: false
  l_idx: 1
  r_pos: true
  r_idx: 2
  r_shift: 3
2923:
- l_pos: true
  l_idx: 0
  r_pos: true
  r_idx: 0
  r_shift: 1
- l_pos: false
  l_idx: 0
  r_pos: true
  r_idx: 1
  r_shift: 3
- l_pos: false
  l_idx: 1
  r_pos: true
  r_idx: 2
  r_shift: 4
- l_pos: true
  l_idx: 1
  r_pos: true
  r_idx: 3
  r_shift: 3
2925:
- l_pos: true
  l_idx: 0
  r_pos: true
  r_idx: 0
  r_shift: 1
- l_pos: false
  l_idx: 1
  r_pos: true
  r_idx: 1
  r_shift: 4
- l_pos: true
  l_idx: 2
  r_pos: true
  r_idx: 2
  r_shift: 6
2927:
- l_pos: true
  l_idx: 0
  r_pos: true
  r_idx: 0
  r_shift: 1
- l_pos: false
  l_idx: 0
  r_pos: true
  r_idx: 1
  r_shift: 3
- l_pos: false
  l_idx: 0
  r_pos: true
  r_idx: 2
  r_shift: 3
- l_pos: false
  l_idx: 0
  r_pos: true
  r_idx: 3
  r_shift: 4
2929:
- l_pos: false
  l_idx: 0
  r_pos: true
  r_idx: 0
  r_shift: 4
- l_pos: true
  l_idx: 1
  r_pos: true
  r_idx: 0
  r_shift: 3
- l_pos: false
  l_idx: 1
  r_pos: true
  r_idx: 2
  r_shift: 7
2931:
- l_pos: true
  l_idx: 0
  r_pos: true
  r_idx: 0
  r_shift: 1
- l_pos: false
  l_idx: 0
  r_pos: true
  r_idx: 1
  r_shift: 3
- l_pos: false
  l_idx: 1
  r_pos: true
  r_idx: 2
  r_shift: 5
- l_pos: false
  l_idx: 0
  r_pos: true
  r_idx: 3
  r_shift: 2
2933:
- l_pos: true
  l_idx: 0
  r_pos: true
  r_idx: 0
  r_shift: 1
- l_pos: false
  l_idx: 0
  r_pos: true
  r_idx: 1
  r_shift: 3
- l_pos: false
  l_idx: 1
  r_pos: true
  r_idx: 2
  r_shift: 5
- l_pos: true
  l_idx: 0
  r_pos: true
  r_idx: 3
  r_shift: 2
2935:
- l_pos: true
  l_idx: 0
  r_pos: true
  r_idx: 0
  r_shift: 3
- l_pos: false
  l_idx: 1
  r_pos: true
  r_idx: 0
  r_shift: 5
- l_pos: false
  l_idx: 1
  r_pos: true
  r_idx: 2
  r_shift: 7
2937:
- l_pos: false
  l_idx: 0
  r_pos: true
  r_idx: 0
  r_shift: 3
- l_pos: true
  l_idx: 1
  r_pos: true
  r_idx: 0
  r_shift: 4
- l_pos: false
  l_idx: 1
  r_pos: true
  r_idx: 2
  r_shift: 7
2939:
- l_pos: true
  l_idx: 0
  r_pos: true
  r_idx: 0
  r_shift: 1
- l_pos: false
  l_idx: 0
  r_pos: true
  r_idx: 1
  r_shift: 3
- l_pos: false
  l_idx: 0
  r_pos: true
  r_idx: 2
  r_shift: 5
- l_pos: false
  l_idx: 0
  r_pos: true
  r_idx: 3
  r_shift: 2
2941:
- l_pos: true
  l_idx: 0
  r_pos: true
  r_idx: 0
  r_shift: 1
- l_pos: false
  l_idx: 0
  r_pos: true
  r_idx: 1
  r_shift: 3
- l_pos: false
  l_idx: 1
  r_pos: true
  r_idx: 2
  r_shift: 7
2943:
- l_pos: true
  l_idx: 0
  r_pos: true
  r_idx: 0
  r_shift: 1
- l_pos: false
  l_idx: 0
  r_pos: true
  r_idx: 1
  r_shift: 3
- l_pos: false
  l_idx: 0
  r_pos: true
  r_idx: 2
  r_shift: 7
".
Definition text_47 : string := "2945:
- l_pos: true
  l_idx: 0
  r_pos: true
  r_idx: 0
  r_shift: 1
- l_pos: false
  l_idx: 0
  r_pos: true
  r_idx: 1
  r_shift: 3
- l_pos: true
  l_idx: 0
  r_pos: true
  r_idx: 2
  r_shift: 7
2947:
- l_pos: true
  l_idx: 0
  r_pos: true
  r_idx: 0
  r_shift: 1
- l_pos: false
  l_idx: 0
  r_pos: true
  r_idx: 1
  r_shift: 3
- l_pos: true
  l_idx: 1
  r_pos: true
  r_idx: 2
  r_shift: 7
2949:
- l_pos: true
  l_idx: 0
  r_pos: true
  r_idx: 0
  r_shift: 1
- l_pos: false
  l_idx: 0
  r_pos: true
  r_idx: 1
  r_shift: 3
- l_pos: true
  l_idx: 0
  r_pos: true
  r_idx: 2
  r_shift: 5
- l_pos: true
  l_idx: 0
  r_pos: true
  r_idx: 3
  r_shift: 2
2951:
- l_pos: false
  l_idx: 0
  r_pos: true
  r_idx: 0
  r_shift: 3
- l_pos: true
  l_idx: 1
  r_pos: true
  r_idx: 0
  r_shift: 4
- l_pos: true
  l_idx: 1
  r_pos: true
  r_idx: 2
  r_shift: 7
2953:
- l_pos: true
  l_idx: 0
  r_pos: true
  r_idx: 0
  r_shift: 3
- l_pos: false
  l_idx: 1
  r_pos: true
  r_idx: 0
  r_shift: 5
- l_pos: true
  l_idx: 1
  r_pos: true
  r_idx: 2
  r_shift: 7
2955:
- l_pos: true
  l_idx: 0
  r_pos: true
  r_idx: 0
  r_shift: 1
- l_pos: false
  l_idx: 0
  r_pos: true
  r_idx: 1
  r_shift: 3
- l_pos: true
  l_idx: 1
  r_pos: true
  r_idx: 2
  r_shift: 5
- l_pos: false
  l_idx: 0
  r_pos: true
  r_idx: 3
  r_shift: 2
2957:
- l_pos: true
  l_idx: 0
  r_pos: true
  r_idx: 0
  r_shift: 1
- l_pos: false
  l_idx: 0
  r_pos: true
  r_idx: 1
  r_shift: 3
- l_pos: true
  l_idx: 1
  r_pos: true
  r_idx: 2
  r_shift: 5
- l_pos: true
  l_idx: 0
  r_pos: true
  r_idx: 3
  r_shift: 2
2959:
- l_pos: false
  l_idx: 0
  r_pos: true
  r_idx: 0
  r_shift: 4
- l_pos: true
  l_idx: 1
  r_pos: true
  r_idx: 0
  r_shift: 3
- l_pos: true
  l_idx: 1
  r_pos: true
  r_idx: 2
  r_shift: 7
2961:
- l_pos: false
  l_idx: 0
  r_pos: true
  r_idx: 0
  r_shift: 6
- l_pos: true
  l_idx: 1
  r_pos: true
  r_idx: 1
  r_shift: 1
- l_pos: false
  l_idx: 1
  r_pos: true
  r_idx: 2
  r_shift: 4
2963:
- l_pos: true
  l_idx: 0
  r_pos: true
  r_idx: 0
  r_shift: 1
- l_pos: false
  l_idx: 1
  r_pos: true
  r_idx: 1
  r_shift: 5
- l_pos: false
  l_idx: 1
  r_pos: true
  r_idx: 2
  r_shift: 3
- l_pos: false
  l_idx: 0
  r_pos: true
  r_idx: 3
  r_shift: 2
2965:
- l_pos: true
  l_idx: 0
  r_pos: true
  r_idx: 0
  r_shift: 1
- l_pos: false
  l_idx: 1
  r_pos: true
  r_idx: 1
  r_shift: 5
- l_pos: false
  l_idx: 1
  r_pos: true
  r_idx: 2
  r_shift: 3
- l_pos: true
  l_idx: 0
  r_pos: true
  r_idx: 3
  r_shift: 2
2967:
- l_pos: true
  l_idx: 0
  r_pos: true
  r_idx: 0
  r_shift: 7
- l_pos: true
  l_idx: 1
  r_pos: true
  r_idx: 1
  r_shift: 1
- l_pos: false
  l_idx: 1
  r_pos: true
  r_idx: 2
  r_shift: 3
2969:
- l_pos: true
  l_idx: 0
  r_pos: true
  r_idx: 0
  r_shift: 1
- l_pos: false
  l_idx: 1
  r_pos: true
  r_idx: 1
  r_shift: 5
- l_pos: false
  l_idx: 0
  r_pos: true
  r_idx: 2
  r_shift: 2
- l_pos: true
  l_idx: 0
  r_pos: true
  r_idx: 3
  r_shift: 3
2971:
- l_pos: true
  l_idx: 0
  r_pos: true
  r_idx: 0
  r_shift: 1
- l_pos: false
  l_idx: 1
  r_pos: true
  r_idx: 1
  r_shift: 5
- l_pos: false
  l_idx: 0
  r_pos: true
  r_idx: 2
  r_shift: 3
- l_pos: false
  l_idx: 0
  r_pos: true
  r_idx: 3
  r_shift: 2
2973:
- l_pos: true
  l_idx: 0
  r_pos: true
  r_idx: 0
  r_shift: 1
- l_pos: false
  l_idx: 1
  r_pos: true
  r_idx: 1
  r_shift: 5
- l_pos: false
  l_idx: 1
  r_pos: true
  r_idx: 2
  r_shift: 5
2975:
- l_pos: true
  l_idx: 0
  r_pos: true
  r_idx: 0
  r_shift: 1
- l_pos: false
  l_idx: 1
  r_pos: true
  r_idx: 1
  r_shift: 5
- l_pos: false
  l_idx: 0
  r_pos: true
  r_idx: 2
  r_shift: 5
2977:
- l_pos: true
  l_idx: 0
  r_pos: true
  r_idx: 0
  r_shift: 1
- l_pos: false
  l_idx: 1
  r_pos: true
  r_idx: 1
  r_shift: 5
- l_pos: true
  l_idx: 0
  r_pos: true
  r_idx: 2
  r_shift: 5
2979:
- l_pos: true
  l_idx: 0
  r_pos: true
  r_idx: 0
  r_shift: 1
- l_pos: false
  l_idx: 1
  r_pos: true
  r_idx: 1
  r_shift: 5
- l_pos: true
  l_idx: 1
  r_pos: true
  r_idx: 2
  r_shift: 5
2981:
- l_pos: true
  l_idx: 0
  r_pos: true
  r_idx: 0
  r_shift: 1
- l_pos: false
  l_idx: 1
  r_pos: true
  r_idx: 1
  r_shift: 5
- l_pos: true
  l_idx: 0
  r_pos: true
  r_idx: 2
  r_shift: 3
- l_pos: true
  l_idx: 0
  r_pos: true
  r_idx: 3
  r_shift: 2
2983:
- l_pos: true
  l_idx: 0
  r_pos: true
  r_idx: 0
  r_shift: 1
- l_pos: false
  l_idx: 1
  r_pos: true
  r_idx: 1
  r_shift: 5
- l_pos: true
  l_idx: 0
  r_pos: true
  r_idx: 2
  r_shift: 2
- l_pos: false
  l_idx: 0
  r_pos: true
  r_idx: 3
  r_shift: 3
2985:
- l_pos: true
  l_idx: 0
  r_pos: true
  r_idx: 0
  r_shift: 1
- l_pos: false
  l_idx: 1
  r_pos: true
  r_idx: 1
  r_shift: 5
- l_pos: true
  l_idx: 0
  r_pos: true
  r_idx: 2
  r_shift: 2
- l_pos: true
  l_idx: 0
  r_pos: true
  r_idx: 3
  r_shift: 3
2987:
- l_pos: true
  l_idx: 0
  r_pos: true
  r_idx: 0
  r_shift: 1
- l_pos: false
  l_idx: 1
  r_pos: true
  r_idx: 1
  r_shift: 5
- l_pos: true
  l_idx: 1
  r_pos: true
  r_idx: 2
  r_shift: 3
- l_pos: false
  l_idx: 0
  r_pos: true
  r_idx: 3
  r_shift: 2
2989:
- l_pos: true
  l_idx: 0
  r_pos: true
  r_idx: 0
  r_shift: 1
- l_pos: false
  l_idx: 1
  r_pos: true
  r_idx: 1
  r_shift: 5
- l_pos: true
  l_idx: 1
  r_pos: true
  r_idx: 2
  r_shift: 3
- l_pos: true
  l_idx: 0
  r_pos: true
  r_idx: 3
  r_shift: 2
2991:
- l_pos: true
  l_idx: 0
  r_pos: true
  r_idx: 0
  r_shift: 4
- l_pos: false
  l_idx: 1
  r_pos: true
  r_idx: 0
  r_shift: 6
- l_pos: false
  l_idx: 1
  r_pos: true
  r_idx: 2
  r_shift: 6
2993:
- l_pos: false
  l_idx: 0
  r_pos: true
  r_idx: 0
  r_shift: 4
- l_pos: true
  l_idx: 1
  r_pos: true
  r_idx: 0
  r_shift: 5
- l_pos: false
  l_idx: 1
  r_pos: true
  r_idx: 2
  r_shift: 6
2995:
- l_pos: true
  l_idx: 0
  r_pos: true
  r_idx: 0
  r_shift: 1
- l_pos: false
  l_idx: 0
  r_pos: true
  r_idx: 1
  r_shift: 4
- l_pos: false
  l_idx: 1
  r_pos: true
  r_idx: 2
  r_shift: 4
- l_pos: false
  l_idx: 0
  r_pos: true
  r_idx: 3
  r_shift: 2
2997:
- l_pos: true
  l_idx: 0
  r_pos: true
  r_idx: 0
  r_shift: 1
- l_pos: false
  l_idx: 0
  r_pos: true
  r_idx: 1
  r_shift: 4
- l_pos: false
  l_idx: 1
  r_pos: true
  r_idx: 2
  r_shift: 4
- l_pos: true
  l_idx: 0
  r_pos: true
  r_idx: 3
  r_shift: 2
2999:
- l_pos: true
  l_idx: 0
  r_pos: true
  r_idx: 0
  r_shift: 1
- l_pos: false
  l_idx: 0
  r_pos: true
  r_idx: 1
  r_shift: 4
- l_pos: false
  l_idx: 0
  r_pos: true
  r_idx: 2
  r_shift: 3
- l_pos: false
  l_idx: 0
  r_pos: true
  r_idx: 3
  r_shift: 3
3001:
- l_pos: true
  l_idx: 0
  r_pos: true
  r_idx: 0
  r_shift: 1
- l_pos: false
  l_idx: 0
  r_pos: true
  r_idx: 1
  r_shift: 4
- l_pos: false
  l_idx: 0
  r_pos: true
  r_idx: 2
  r_shift: 3
- l_pos: true
  l_idx: 0
  r_pos: true
  r_idx: 3
  r_shift: 3
3003:
- l_pos: true
  l_idx: 0
  r_pos: true
  r_idx: 0
  r_shift: 1
- l_pos: false
  l_idx: 0
  r_pos: true
  r_idx: 1
  r_shift: 4
- l_pos: false
  l_idx: 0
  r_pos: true
  r_idx: 2
  r_shift: 4
- l_pos: false
  l_idx: 0
  r_pos: true
  r_idx: 3
  r_shift: 2
3005:
- l_pos: true
  l_idx: 0
  r_pos: true
  r_idx: 0
  r_shift: 1
- l_pos: false
  l_idx: 0
  r_pos: true
  r_idx: 1
  r_shift: 4
- l_pos: false
  l_idx: 1
  r_pos: true
  r_idx: 2
  r_shift: 6
3007:
- l_pos: true
  l_idx: 0
  r_pos: true
  r_idx: 0
  r_shift: 1
- l_pos: false
  l_idx: 0
  r_pos: true
  r_idx: 1
  r_shift: 4
- l_pos: false
  l_idx: 0
  r_pos: true
  r_idx: 2
  r_shift: 6
".
Definition text_48 : string := "3009:
- l_pos: true
  l_idx: 0
  r_pos: true
  r_idx: 0
  r_shift: 1
- l_pos: false
  l_idx: 0
  r_pos: true
  r_idx: 1
  r_shift: 4
- l_pos: true
  l_idx: 0
  r_pos: true
  r_idx: 2
  r_shift: 6
3011:
- l_pos: true
  l_idx: 0
  r_pos: true
  r_idx: 0
  r_shift: 1
- l_pos: false
  l_idx: 0
  r_pos: true
  r_idx: 1
  r_shift: 4
- l_pos: true
  l_idx: 1
  r_pos: true
  r_idx: 2
  r_shift: 6
3013:
- l_pos: true
  l_idx: 0
  r_pos: true
  r_idx: 0
  r_shift: 1
- l_pos: false
  l_idx: 0
  r_pos: true
  r_idx: 1
  r_shift: 4
- l_pos: true
  l_idx: 0
  r_pos: true
  r_idx: 2
  r_shift: 4
- l_pos: true
  l_idx: 0
  r_pos: true
  r_idx: 3
  r_shift: 2
3015:
- l_pos: true
  l_idx: 0
  r_pos: true
  r_idx: 0
  r_shift: 1
- l_pos: false
  l_idx: 0
  r_pos: true
  r_idx: 1
  r_shift: 4
- l_pos: true
  l_idx: 0
  r_pos: true
  r_idx: 2
  r_shift: 3
- l_pos: false
  l_idx: 0
  r_pos: true
  r_idx: 3
  r_shift: 3
3017:
- l_pos: true
  l_idx: 0
  r_pos: true
  r_idx: 0
  r_shift: 1
- l_pos: false
  l_idx: 0
  r_pos: true
  r_idx: 1
  r_shift: 4
- l_pos: true
  l_idx: 0
  r_pos: true
  r_idx: 2
  r_shift: 3
- l_pos: true
  l_idx: 0
  r_pos: true
  r_idx: 3
  r_shift: 3
3019:
- l_pos: true
  l_idx: 0
  r_pos: true
  r_idx: 0
  r_shift: 1
- l_pos: false
  l_idx: 1
  r_pos: true
  r_idx: 1
  r_shift: 6
- l_pos: false
  l_idx: 0
  r_pos: true
  r_idx: 2
  r_shift: 2
- l_pos: false
  l_idx: 0
  r_pos: true
  r_idx: 3
  r_shift: 2
3021:
- l_pos: true
  l_idx: 0
  r_pos: true
  r_idx: 0
  r_shift: 1
- l_pos: false
  l_idx: 1
  r_pos: true
  r_idx: 1
  r_shift: 6
- l_pos: false
  l_idx: 1
  r_pos: true
  r_idx: 2
  r_shift: 4
3023:
- l_pos: true
  l_idx: 0
  r_pos: true
  r_idx: 0
  r_shift: 1
- l_pos: false
  l_idx: 1
  r_pos: true
  r_idx: 1
  r_shift: 6
- l_pos: false
  l_idx: 0
  r_pos: true
  r_idx: 2
  r_shift: 4
3025:
- l_pos: true
  l_idx: 0
  r_pos: true
  r_idx: 0
  r_shift: 1
- l_pos: false
  l_idx: 1
  r_pos: true
  r_idx: 1
  r_shift: 6
- l_pos: true
  l_idx: 0
  r_pos: true
  r_idx: 2
  r_shift: 4
3027:
- l_pos: true
  l_idx: 0
  r_pos: true
  r_idx: 0
  r_shift: 1
- l_pos: false
  l_idx: 1
  r_pos: true
  r_idx: 1
  r_shift: 6
- l_pos: true
  l_idx: 1
  r_pos: true
  r_idx: 2
  r_shift: 4
3029:
- l_pos: true
  l_idx: 0
  r_pos: true
  r_idx: 0
  r_shift: 1
- l_pos: false
  l_idx: 1
  r_pos: true
  r_idx: 1
  r_shift: 6
- l_pos: true
  l_idx: 0
  r_pos: true
  r_idx: 2
  r_shift: 2
- l_pos: true
  l_idx: 0
  r_pos: true
  r_idx: 3
  r_shift: 2
3031:
- l_pos: true
  l_idx: 0
  r_pos: true
  r_idx: 0
  r_shift: 1
- l_pos: false
  l_idx: 0
  r_pos: true
  r_idx: 1
  r_shift: 5
- l_pos: false
  l_idx: 0
  r_pos: true
  r_idx: 2
  r_shift: 2
- l_pos: false
  l_idx: 0
  r_pos: true
  r_idx: 3
  r_shift: 3
3033:
- l_pos: true
  l_idx: 0
  r_pos: true
  r_idx: 0
  r_shift: 1
- l_pos: false
  l_idx: 0
  r_pos: true
  r_idx: 1
  r_shift: 5
- l_pos: false
  l_idx: 0
  r_pos: true
  r_idx: 2
  r_shift: 2
- l_pos: true
  l_idx: 0
  r_pos: true
  r_idx: 3
  r_shift: 3
3035:
- l_pos: true
  l_idx: 0
  r_pos: true
  r_idx: 0
  r_shift: 1
- l_pos: false
  l_idx: 0
  r_pos: true
  r_idx: 1
  r_shift: 5
- l_pos: false
  l_idx: 0
  r_pos: true
  r_idx: 2
  r_shift: 3
- l_pos: false
  l_idx: 0
  r_pos: true
  r_idx: 3
  r_shift: 2
3037:
- l_pos: true
  l_idx: 0
  r_pos: true
  r_idx: 0
  r_shift: 1
- l_pos: false
  l_idx: 0
  r_pos: true
  r_idx: 1
  r_shift: 5
- l_pos: false
  l_idx: 1
  r_pos: true
  r_idx: 2
  r_shift: 5
3039:
- l_pos: true
  l_idx: 0
  r_pos: true
  r_idx: 0
  r_shift: 1
- l_pos: false
  l_idx: 0
  r_pos: true
  r_idx: 1
  r_shift: 5
- l_pos: false
  l_idx: 0
  r_pos: true
  r_idx: 2
  r_shift: 5
3041:
- l_pos: true
  l_idx: 0
  r_pos: true
  r_idx: 0
  r_shift: 1
- l_pos: false
  l_idx: 0
  r_pos: true
  r_idx: 1
  r_shift: 5
- l_pos: true
  l_idx: 0
  r_pos: true
  r_idx: 2
  r_shift: 5
3043:
- l_pos: true
  l_idx: 0
  r_pos: true
  r_idx: 0
  r_shift: 1
- l_pos: false
  l_idx: 0
  r_pos: true
  r_idx: 1
  r_shift: 5
- l_pos: true
  l_idx: 1
  r_pos: true
  r_idx: 2
  r_shift: 5
3045:
- l_pos: true
  l_idx: 0
  r_pos: true
  r_idx: 0
  r_shift: 1
- l_pos: false
  l_idx: 1
  r_pos: true
  r_idx: 1
  r_shift: 7
- l_pos: false
  l_idx: 1
  r_pos: true
  r_idx: 2
  r_shift: 3
3047:
- l_pos: true
  l_idx: 0
  r_pos: true
  r_idx: 0
  r_shift: 1
- l_pos: false
  l_idx: 1
  r_pos: true
  r_idx: 1
  r_shift: 7
- l_pos: false
  l_idx: 0
  r_pos: true
  r_idx: 2
  r_shift: 3
3049:
- l_pos: true
  l_idx: 0
  r_pos: true
  r_idx: 0
  r_shift: 1
- l_pos: false
  l_idx: 1
  r_pos: true
  r_idx: 1
  r_shift: 7
- l_pos: true
  l_idx: 0
  r_pos: true
  r_idx: 2
  r_shift: 3
3051:
- l_pos: true
  l_idx: 0
  r_pos: true
  r_idx: 0
  r_shift: 1
- l_pos: false
  l_idx: 1
  r_pos: true
  r_idx: 1
  r_shift: 7
- l_pos: true
  l_idx: 1
  r_pos: true
  r_idx: 2
  r_shift: 3
3053:
- l_pos: true
  l_idx: 0
  r_pos: true
  r_idx: 0
  r_shift: 1
- l_pos: false
  l_idx: 0
  r_pos: true
  r_idx: 1
  r_shift: 6
- l_pos: false
  l_idx: 1
  r_pos: true
  r_idx: 2
  r_shift: 4
3055:
- l_pos: true
  l_idx: 0
  r_pos: true
  r_idx: 0
  r_shift: 1
- l_pos: false
  l_idx: 0
  r_pos: true
  r_idx: 1
  r_shift: 6
- l_pos: false
  l_idx: 0
  r_pos: true
  r_idx: 2
  r_shift: 4
3057:
- l_pos: true
  l_idx: 0
  r_pos: true
  r_idx: 0
  r_shift: 1
- l_pos: false
  l_idx: 0
  r_pos: true
  r_idx: 1
  r_shift: 6
- l_pos: true
  l_idx: 0
  r_pos: true
  r_idx: 2
  r_shift: 4
3059:
- l_pos: true
  l_idx: 0
  r_pos: true
  r_idx: 0
  r_shift: 1
- l_pos: false
  l_idx: 1
  r_pos: true
  r_idx: 1
  r_shift: 8
- l_pos: false
  l_idx: 0
  r_pos: true
  r_idx: 2
  r_shift: 2
3061:
- l_pos: true
  l_idx: 0
  r_pos: true
  r_idx: 0
  r_shift: 1
- l_pos: false
  l_idx: 1
  r_pos: true
  r_idx: 1
  r_shift: 8
- l_pos: true
  l_idx: 0
  r_pos: true
  r_idx: 2
  r_shift: 2
3063:
- l_pos: true
  l_idx: 0
  r_pos: true
  r_idx: 0
  r_shift: 1
- l_pos: false
  l_idx: 0
  r_pos: true
  r_idx: 1
  r_shift: 7
- l_pos: false
  l_idx: 0
  r_pos: true
  r_idx: 2
  r_shift: 3
3065:
- l_pos: true
  l_idx: 0
  r_pos: true
  r_idx: 0
  r_shift: 1
- l_pos: false
  l_idx: 0
  r_pos: true
  r_idx: 1
  r_shift: 7
- l_pos: true
  l_idx: 0
  r_pos: true
  r_idx: 2
  r_shift: 3
3067:
- l_pos: true
  l_idx: 0
  r_pos: true
  r_idx: 0
  r_shift: 1
- l_pos: false
  l_idx: 0
  r_pos: true
  r_idx: 1
  r_shift: 8
- l_pos: false
  l_idx: 0
  r_pos: true
  r_idx: 2
  r_shift: 2
3069:
- l_pos: true
  l_idx: 0
  r_pos: true
  r_idx: 0
  r_shift: 1
- l_pos: false
  l_idx: 1
  r_pos: true
  r_idx: 1
  r_shift: 10
3071:
- l_pos: true
  l_idx: 0
  r_pos: true
  r_idx: 0
  r_shift: 1
- l_pos: false
  l_idx: 0
  r_pos: true
  r_idx: 1
  r_shift: 10
".
Definition text_49 : string := "3073:
- l_pos: true
  l_idx: 0
  r_pos: true
  r_idx: 0
  r_shift: 1
- l_pos: true
  l_idx: 0
  r_pos: true
  r_idx: 1
  r_shift: 10
3075:
- l_pos: true
  l_idx: 0
  r_pos: true
  r_idx: 0
  r_shift: 1
- l_pos: true
  l_idx: 1
  r_pos: true
  r_idx: 1
  r_shift: 10
3077:
- l_pos: true
  l_idx: 0
  r_pos: true
  r_idx: 0
  r_shift: 1
- l_pos: true
  l_idx: 0
  r_pos: true
  r_idx: 1
  r_shift: 8
- l_pos: true
  l_idx: 0
  r_pos: true
  r_idx: 2
  r_shift: 2
3079:
- l_pos: true
  l_idx: 0
  r_pos: true
  r_idx: 0
  r_shift: 1
- l_pos: true
  l_idx: 0
  r_pos: true
  r_idx: 1
  r_shift: 7
- l_pos: false
  l_idx: 0
  r_pos: true
  r_idx: 2
  r_shift: 3
3081:
- l_pos: true
  l_idx: 0
  r_pos: true
  r_idx: 0
  r_shift: 1
- l_pos: true
  l_idx: 0
  r_pos: true
  r_idx: 1
  r_shift: 7
- l_pos: true
  l_idx: 0
  r_pos: true
  r_idx: 2
  r_shift: 3
3083:
- l_pos: true
  l_idx: 0
  r_pos: true
  r_idx: 0
  r_shift: 1
- l_pos: true
  l_idx: 1
  r_pos: true
  r_idx: 1
  r_shift: 8
- l_pos: false
  l_idx: 0
  r_pos: true
  r_idx: 2
  r_shift: 2
3085:
- l_pos: true
  l_idx: 0
  r_pos: true
  r_idx: 0
  r_shift: 1
- l_pos: true
  l_idx: 1
  r_pos: true
  r_idx: 1
  r_shift: 8
- l_pos: true
  l_idx: 0
  r_pos: true
  r_idx: 2
  r_shift: 2
3087:
- l_pos: true
  l_idx: 0
  r_pos: true
  r_idx: 0
  r_shift: 1
- l_pos: true
  l_idx: 0
  r_pos: true
  r_idx: 1
  r_shift: 6
- l_pos: false
  l_idx: 0
  r_pos: true
  r_idx: 2
  r_shift: 4
3089:
- l_pos: true
  l_idx: 0
  r_pos: true
  r_idx: 0
  r_shift: 1
- l_pos: true
  l_idx: 0
  r_pos: true
  r_idx: 1
  r_shift: 6
- l_pos: true
  l_idx: 0
  r_pos: true
  r_idx: 2
  r_shift: 4
3091:
- l_pos: true
  l_idx: 0
  r_pos: true
  r_idx: 0
  r_shift: 1
- l_pos: true
  l_idx: 0
  r_pos: true
  r_idx: 1
  r_shift: 6
- l_pos: true
  l_idx: 1
  r_pos: true
  r_idx: 2
  r_shift: 4
3093:
- l_pos: true
  l_idx: 0
  r_pos: true
  r_idx: 0
  r_shift: 1
- l_pos: true
  l_idx: 1
  r_pos: true
  r_idx: 1
  r_shift: 7
- l_pos: false
  l_idx: 1
  r_pos: true
  r_idx: 2
  r_shift: 3
3095:
- l_pos: true
  l_idx: 0
  r_pos: true
  r_idx: 0
  r_shift: 1
- l_pos: true
  l_idx: 1
  r_pos: true
  r_idx: 1
  r_shift: 7
- l_pos: false
  l_idx: 0
  r_pos: true
  r_idx: 2
  r_shift: 3
3097:
- l_pos: true
  l_idx: 0
  r_pos: true
  r_idx: 0
  r_shift: 1
- l_pos: true
  l_idx: 1
  r_pos: true
  r_idx: 1
  r_shift: 7
- l_pos: true
  l_idx: 0
  r_pos: true
  r_idx: 2
  r_shift: 3
3099:
- l_pos: true
  l_idx: 0
  r_pos: true
  r_idx: 0
  r_shift: 1
- l_pos: true
  l_idx: 1
  r_pos: true
  r_idx: 1
  r_shift: 7
- l_pos: true
  l_idx: 1
  r_pos: true
  r_idx: 2
  r_shift: 3
3101:
- l_pos: true
  l_idx: 0
  r_pos: true
  r_idx: 0
  r_shift: 1
- l_pos: true
  l_idx: 0
  r_pos: true
  r_idx: 1
  r_shift: 5
- l_pos: false
  l_idx: 1
  r_pos: true
  r_idx: 2
  r_shift: 5
3103:
- l_pos: true
  l_idx: 0
  r_pos: true
  r_idx: 0
  r_shift: 1
- l_pos: true
  l_idx: 0
  r_pos: true
  r_idx: 1
  r_shift: 5
- l_pos: false
  l_idx: 0
  r_pos: true
  r_idx: 2
  r_shift: 5
3105:
- l_pos: true
  l_idx: 0
  r_pos: true
  r_idx: 0
  r_shift: 1
- l_pos: true
  l_idx: 0
  r_pos: true
  r_idx: 1
  r_shift: 5
- l_pos: true
  l_idx: 0
  r_pos: true
  r_idx: 2
  r_shift: 5
3107:
- l_pos: true
  l_idx: 0
  r_pos: true
  r_idx: 0
  r_shift: 1
- l_pos: true
  l_idx: 0
  r_pos: true
  r_idx: 1
  r_shift: 5
- l_pos: true
  l_idx: 1
  r_pos: true
  r_idx: 2
  r_shift: 5
3109:
- l_pos: true
  l_idx: 0
  r_pos: true
  r_idx: 0
  r_shift: 1
- l_pos: true
  l_idx: 0
  r_pos: true
  r_idx: 1
  r_shift: 5
- l_pos: true
  l_idx: 0
  r_pos: true
  r_idx: 2
  r_shift: 3
- l_pos: true
  l_idx: 0
  r_pos: true
  r_idx: 3
  r_shift: 2
3111:
- l_pos: true
  l_idx: 0
  r_pos: true
  r_idx: 0
  r_shift: 1
- l_pos: true
  l_idx: 0
  r_pos: true
  r_idx: 1
  r_shift: 5
- l_pos: true
  l_idx: 0
  r_pos: true
  r_idx: 2
  r_shift: 2
- l_pos: false
  l_idx: 0
  r_pos: true
  r_idx: 3
  r_shift: 3
3113:
- l_pos: true
  l_idx: 0
  r_pos: true
  r_idx: 0
  r_shift: 1
- l_pos: true
  l_idx: 0
  r_pos: true
  r_idx: 1
  r_shift: 5
- l_pos: true
  l_idx: 0
  r_pos: true
  r_idx: 2
  r_shift: 2
- l_pos: true
  l_idx: 0
  r_pos: true
  r_idx: 3
  r_shift: 3
3115:
- l_pos: true
  l_idx: 0
  r_pos: true
  r_idx: 0
  r_shift: 1
- l_pos: true
  l_idx: 1
  r_pos: true
  r_idx: 1
  r_shift: 6
- l_pos: false
  l_idx: 0
  r_pos: true
  r_idx: 2
  r_shift: 2
- l_pos: false
  l_idx: 0
  r_pos: true
  r_idx: 3
  r_shift: 2
3117:
- l_pos: true
  l_idx: 0
  r_pos: true
  r_idx: 0
  r_shift: 1
- l_pos: true
  l_idx: 1
  r_pos: true
  r_idx: 1
  r_shift: 6
- l_pos: false
  l_idx: 1
  r_pos: true
  r_idx: 2
  r_shift: 4
3119:
- l_pos: true
  l_idx: 0
  r_pos: true
  r_idx: 0
  r_shift: 1
- l_pos: true
  l_idx: 1
  r_pos: true
  r_idx: 1
  r_shift: 6
- l_pos: false
  l_idx: 0
  r_pos: true
  r_idx: 2
  r_shift: 4
3121:
- l_pos: true
  l_idx: 0
  r_pos: true
  r_idx: 0
  r_shift: 1
- l_pos: true
  l_idx: 1
  r_pos: true
  r_idx: 1
  r_shift: 6
- l_pos: true
  l_idx: 0
  r_pos: true
  r_idx: 2
  r_shift: 4
3123:
- l_pos: true
  l_idx: 0
  r_pos: true
  r_idx: 0
  r_shift: 1
- l_pos: true
  l_idx: 1
  r_pos: true
  r_idx: 1
  r_shift: 6
- l_pos: true
  l_idx: 1
  r_pos: true
  r_idx: 2
  r_shift: 4
3125:
- l_pos: true
  l_idx: 0
  r_pos: true
  r_idx: 0
  r_shift: 1
- l_pos: true
  l_idx: 1
  r_pos: true
  r_idx: 1
  r_shift: 6
- l_pos: true
  l_idx: 0
  r_pos: true
  r_idx: 2
  r_shift: 2
- l_pos: true
  l_idx: 0
  r_pos: true
  r_idx: 3
  r_shift: 2
3127:
- l_pos: true
  l_idx: 0
  r_pos: true
  r_idx: 0
  r_shift: 1
- l_pos: true
  l_idx: 0
  r_pos: true
  r_idx: 1
  r_shift: 4
- l_pos: false
  l_idx: 0
  r_pos: true
  r_idx: 2
  r_shift: 3
- l_pos: false
  l_idx: 0
  r_pos: true
  r_idx: 3
  r_shift: 3
3129:
- l_pos: false
  l_idx: 0
  r_pos: true
  r_idx: 0
  r_shift: 3
- l_pos: false
  l_idx: 1
  r_pos: true
  r_idx: 1
  r_shift: 3
- l_pos: false
  l_idx: 1
  r_pos: true
  r_idx: 2
  r_shift: 6
3131:
- l_pos: true
  l_idx: 0
  r_pos: true
  r_idx: 0
  r_shift: 1
- l_pos: true
  l_idx: 0
  r_pos: true
  r_idx: 1
  r_shift: 4
- l_pos: false
  l_idx: 0
  r_pos: true
  r_idx: 2
  r_shift: 4
- l_pos: false
  l_idx: 0
  r_pos: true
  r_idx: 3
  r_shift: 2
3133:
- l_pos: true
  l_idx: 0
  r_pos: true
  r_idx: 0
  r_shift: 1
- l_pos: true
  l_idx: 0
  r_pos: true
  r_idx: 1
  r_shift: 4
- l_pos: false
  l_idx: 1
  r_pos: true
  r_idx: 2
  r_shift: 6
3135:
- l_pos: true
  l_idx: 0
  r_pos: true
  r_idx: 0
  r_shift: 1
- l_pos: true
  l_idx: 0
  r_pos: true
  r_idx: 1
  r_shift: 4
- l_pos: false
  l_idx: 0
  r_pos: true
  r_idx: 2
  r_shift: 6
".
Definition text_50 : string := "3137:
- l_pos: true
  l_idx: 0
  r_pos: true
  r_idx: 0
  r_shift: 1
- l_pos: true
  l_idx: 0
  r_pos: true
  r_idx: 1
  r_shift: 4
- l_pos: true
  l_idx: 0
  r_pos: true
  r_idx: 2
  r_shift: 6
3139:
- l_pos: true
  l_idx: 0
  r_pos: true
  r_idx: 0
  r_shift: 1
- l_pos: true
  l_idx: 0
  r_pos: true
  r_idx: 1
  r_shift: 4
- l_pos: true
  l_idx: 1
  r_pos: true
  r_idx: 2
  r_shift: 6
3141:
- l_pos: true
  l_idx: 0
  r_pos: true
  r_idx: 0
  r_shift: 1
- l_pos: true
  l_idx: 0
  r_pos: true
  r_idx: 1
  r_shift: 4
- l_pos: true
  l_idx: 0
  r_pos: true
  r_idx: 2
  r_shift: 4
- l_pos: true
  l_idx: 0
  r_pos: true
  r_idx: 3
  r_shift: 2
3143:
- l_pos: false
  l_idx: 0
  r_pos: true
  r_idx: 0
  r_shift: 3
- l_pos: false
  l_idx: 1
  r_pos: true
  r_idx: 1
  r_shift: 3
- l_pos: true
  l_idx: 1
  r_pos: true
  r_idx: 2
  r_shift: 6
3145:
- l_pos: true
  l_idx: 0
  r_pos: true
  r_idx: 0
  r_shift: 1
- l_pos: true
  l_idx: 0
  r_pos: true
  r_idx: 1
  r_shift: 4
- l_pos: true
  l_idx: 0
  r_pos: true
  r_idx: 2
  r_shift: 3
- l_pos: true
  l_idx: 0
  r_pos: true
  r_idx: 3
  r_shift: 3
3147:
- l_pos: true
  l_idx: 0
  r_pos: true
  r_idx: 0
  r_shift: 1
- l_pos: true
  l_idx: 0
  r_pos: true
  r_idx: 1
  r_shift: 4
- l_pos: true
  l_idx: 1
  r_pos: true
  r_idx: 2
  r_shift: 4
- l_pos: false
  l_idx: 0
  r_pos: true
  r_idx: 3
  r_shift: 2
3149:
- l_pos: true
  l_idx: 0
  r_pos: true
  r_idx: 0
  r_shift: 1
- l_pos: true
  l_idx: 0
  r_pos: true
  r_idx: 1
  r_shift: 4
- l_pos: true
  l_idx: 1
  r_pos: true
  r_idx: 2
  r_shift: 4
- l_pos: true
  l_idx: 0
  r_pos: true
  r_idx: 3
  r_shift: 2
3151:
- l_pos: false
  l_idx: 0
  r_pos: true
  r_idx: 0
  r_shift: 4
- l_pos: false
  l_idx: 1
  r_pos: true
  r_idx: 0
  r_shift: 6
- l_pos: true
  l_idx: 1
  r_pos: true
  r_idx: 2
  r_shift: 6
3153:
- l_pos: true
  l_idx: 0
  r_pos: true
  r_idx: 0
  r_shift: 4
- l_pos: true
  l_idx: 1
  r_pos: true
  r_idx: 0
  r_shift: 5
- l_pos: true
  l_idx: 1
  r_pos: true
  r_idx: 2
  r_shift: 6
3155:
- l_pos: true
  l_idx: 0
  r_pos: true
  r_idx: 0
  r_shift: 1
- l_pos: true
  l_idx: 1
  r_pos: true
  r_idx: 1
  r_shift: 5
- l_pos: false
  l_idx: 1
  r_pos: true
  r_idx: 2
  r_shift: 3
- l_pos: false
  l_idx: 0
  r_pos: true
  r_idx: 3
  r_shift: 2
3157:
- l_pos: true
  l_idx: 0
  r_pos: true
  r_idx: 0
  r_shift: 1
- l_pos: true
  l_idx: 1
  r_pos: true
  r_idx: 1
  r_shift: 5
- l_pos: false
  l_idx: 1
  r_pos: true
  r_idx: 2
  r_shift: 3
- l_pos: true
  l_idx: 0
  r_pos: true
  r_idx: 3
  r_shift: 2
3159:
- l_pos: true
  l_idx: 0
  r_pos: true
  r_idx: 0
  r_shift: 1
- l_pos: true
  l_idx: 1
  r_pos: true
  r_idx: 1
  r_shift: 5
- l_pos: false
  l_idx: 0
  r_pos: true
  r_idx: 2
  r_shift: 2
- l_pos: false
  l_idx: 0
  r_pos: true
  r_idx: 3
  r_shift: 3
3161:
- l_pos: true
  l_idx: 0
  r_pos: true
  r_idx: 0
  r_shift: 1
- l_pos: true
  l_idx: 1
  r_pos: true
  r_idx: 1
  r_shift: 5
- l_pos: false
  l_idx: 0
  r_pos: true
  r_idx: 2
  r_shift: 2
- l_pos: true
  l_idx: 0
  r_pos: true
  r_idx: 3
  r_shift: 3
3163:
- l_pos: true
  l_idx: 0
  r_pos: true
  r_idx: 0
  r_shift: 1
- l_pos: true
  l_idx: 1
  r_pos: true
  r_idx: 1
  r_shift: 5
- l_pos: false
  l_idx: 0
  r_pos: true
  r_idx: 2
  r_shift: 3
- l_pos: false
  l_idx: 0
  r_pos: true
  r_idx: 3
  r_shift: 2
3165:
- l_pos: true
  l_idx: 0
  r_pos: true
  r_idx: 0
  r_shift: 1
- l_pos: true
  l_idx: 1
  r_pos: true
  r_idx: 1
  r_shift: 5
- l_pos: false
  l_idx: 1
  r_pos: true
  r_idx: 2
  r_shift: 5
3167:
- l_pos: true
  l_idx: 0
  r_pos: true
  r_idx: 0
  r_shift: 1
- l_pos: true
  l_idx: 1
  r_pos: true
  r_idx: 1
  r_shift: 5
- l_pos: false
  l_idx: 0
  r_pos: true
  r_idx: 2
  r_shift: 5
3169:
- l_pos: true
  l_idx: 0
  r_pos: true
  r_idx: 0
  r_shift: 1
- l_pos: true
  l_idx: 1
  r_pos: true
  r_idx: 1
  r_shift: 5
- l_pos: true
  l_idx: 0
  r_pos: true
  r_idx: 2
  r_shift: 5
3171:
- l_pos: true
  l_idx: 0
  r_pos: true
  r_idx: 0
  r_shift: 1
- l_pos: true
  l_idx: 1
  r_pos: true
  r_idx: 1
  r_shift: 5
- l_pos: true
  l_idx: 1
  r_pos: true
  r_idx: 2
  r_shift: 5
3173:
- l_pos: true
  l_idx: 0
  r_pos: true
  r_idx: 0
  r_shift: 1
- l_pos: true
  l_idx: 1
  r_pos: true
  r_idx: 1
  r_shift: 5
- l_pos: true
  l_idx: 0
  r_pos: true
  r_idx: 2
  r_shift: 3
- l_pos: true
  l_idx: 0
  r_pos: true
  r_idx: 3
  r_shift: 2
3175:
- l_pos: false
  l_idx: 0
  r_pos: true
  r_idx: 0
  r_shift: 7
- l_pos: true
  l_idx: 1
  r_pos: true
  r_idx: 1
  r_shift: 1
- l_pos: true
  l_idx: 1
  r_pos: true
  r_idx: 2
  r_shift: 3
3177:
- l_pos: true
  l_idx: 0
  r_pos: true
  r_idx: 0
  r_shift: 1
- l_pos: true
  l_idx: 1
  r_pos: true
  r_idx: 1
  r_shift: 5
- l_pos: true
  l_idx: 0
  r_pos: true
  r_idx: 2
  r_shift: 2
- l_pos: true
  l_idx: 0
  r_pos: true
  r_idx: 3
  r_shift: 3
3179:
- l_pos: true
  l_idx: 0
  r_pos: true
  r_idx: 0
  r_shift: 1
- l_pos: true
  l_idx: 1
  r_pos: true
  r_idx: 1
  r_shift: 5
- l_pos: true
  l_idx: 1
  r_pos: true
  r_idx: 2
  r_shift: 3
- l_pos: false
  l_idx: 0
  r_pos: true
  r_idx: 3
  r_shift: 2
3181:
- l_pos: true
  l_idx: 0
  r_pos: true
  r_idx: 0
  r_shift: 1
- l_pos: true
  l_idx: 1
  r_pos: true
  r_idx: 1
  r_shift: 5
- l_pos: true
  l_idx: 1
  r_pos: true
  r_idx: 2
  r_shift: 3
- l_pos: true
  l_idx: 0
  r_pos: true
  r_idx: 3
  r_shift: 2
3183:
- l_pos: true
  l_idx: 0
  r_pos: true
  r_idx: 0
  r_shift: 4
- l_pos: true
  l_idx: 1
  r_pos: true
  r_idx: 0
  r_shift: 3
- l_pos: false
  l_idx: 1
  r_pos: true
  r_idx: 2
  r_shift: 7
3185:
- l_pos: true
  l_idx: 0
  r_pos: true
  r_idx: 0
  r_shift: 6
- l_pos: true
  l_idx: 1
  r_pos: true
  r_idx: 1
  r_shift: 1
- l_pos: true
  l_idx: 1
  r_pos: true
  r_idx: 2
  r_shift: 4
3187:
- l_pos: true
  l_idx: 0
  r_pos: true
  r_idx: 0
  r_shift: 1
- l_pos: true
  l_idx: 0
  r_pos: true
  r_idx: 1
  r_shift: 3
- l_pos: false
  l_idx: 1
  r_pos: true
  r_idx: 2
  r_shift: 5
- l_pos: false
  l_idx: 0
  r_pos: true
  r_idx: 3
  r_shift: 2
3189:
- l_pos: true
  l_idx: 0
  r_pos: true
  r_idx: 0
  r_shift: 1
- l_pos: true
  l_idx: 0
  r_pos: true
  r_idx: 1
  r_shift: 3
- l_pos: false
  l_idx: 1
  r_pos: true
  r_idx: 2
  r_shift: 5
- l_pos: true
  l_idx: 0
  r_pos: true
  r_idx: 3
  r_shift: 2
3191:
- l_pos: true
  l_idx: 0
  r_pos: true
  r_idx: 0
  r_shift: 3
- l_pos: true
  l_idx: 1
  r_pos: true
  r_idx: 0
  r_shift: 4
- l_pos: false
  l_idx: 1
  r_pos: true
  r_idx: 2
  r_shift: 7
3193:
- l_pos: false
  l_idx: 0
  r_pos: true
  r_idx: 0
  r_shift: 3
- l_pos: false
  l_idx: 1
  r_pos: true
  r_idx: 0
  r_shift: 5
- l_pos: false
  l_idx: 1
  r_pos: true
  r_idx: 2
  r_shift: 7
3195:
- l_pos: true
  l_idx: 0
  r_pos: true
  r_idx: 0
  r_shift: 2
- l_pos: true
  l_idx: 1
  r_pos: true
  r_idx: 1
  r_shift: 2
- l_pos: false
  l_idx: 1
  r_pos: true
  r_idx: 2
  r_shift: 7
3197:
- l_pos: true
  l_idx: 0
  r_pos: true
  r_idx: 0
  r_shift: 1
- l_pos: true
  l_idx: 0
  r_pos: true
  r_idx: 1
  r_shift: 3
- l_pos: false
  l_idx: 1
  r_pos: true
  r_idx: 2
  r_shift: 7
3199:
- l_pos: true
  l_idx: 0
  r_pos: true
  r_idx: 0
  r_shift: 1
- l_pos: true
  l_idx: 0
  r_pos: true
  r_idx: 1
  r_shift: 3
- l_pos: false
  l_idx: 0
  r_pos: true
  r_idx: 2
  r_shift: 7
".
Definition text_51 : string := "3201:
- l_pos: true
  l_idx: 0
  r_pos: true
  r_idx: 0
  r_shift: 1
- l_pos: true
  l_idx: 0
  r_pos: true
  r_idx: 1
  r_shift: 3
- l_pos: true
  l_idx: 0
  r_pos: true
  r_idx: 2
  r_shift: 7
3203:
- l_pos: true
  l_idx: 0
  r_pos: true
  r_idx: 0
  r_shift: 1
- l_pos: true
  l_idx: 0
  r_pos: true
  r_idx: 1
  r_shift: 3
- l_pos: true
  l_idx: 1
  r_pos: true
  r_idx: 2
  r_shift: 7
3205:
- l_pos: true
  l_idx: 0
  r_pos: true
  r_idx: 0
  r_shift: 2
- l_pos: true
  l_idx: 1
  r_pos: true
  r_idx: 1
  r_shift: 2
- l_pos: true
  l_idx: 1
  r_pos: true
  r_idx: 2
  r_shift: 7
3207:
- l_pos: false
  l_idx: 0
  r_pos: true
  r_idx: 0
  r_shift: 3
- l_pos: false
  l_idx: 1
  r_pos: true
  r_idx: 0
  r_shift: 5
- l_pos: true
  l_idx: 1
  r_pos: true
  r_idx: 2
  r_shift: 7
3209:
- l_pos: true
  l_idx: 0
  r_pos: true
  r_idx: 0
  r_shift: 3
- l_pos: true
  l_idx: 1
  r_pos: true
  r_idx: 0
  r_shift: 4
- l_pos: true
  l_idx: 1
  r_pos: true
  r_idx: 2
  r_shift: 7
3211:
- l_pos: true
  l_idx: 0
  r_pos: true
  r_idx: 0
  r_shift: 1
- l_pos: true
  l_idx: 0
  r_pos: true
  r_idx: 1
  r_shift: 3
- l_pos: true
  l_idx: 1
  r_pos: true
  r_idx: 2
  r_shift: 5
- l_pos: false
  l_idx: 0
  r_pos: true
  r_idx: 3
  r_shift: 2
3213:
- l_pos: true
  l_idx: 0
  r_pos: true
  r_idx: 0
  r_shift: 1
- l_pos: true
  l_idx: 1
  r_pos: true
  r_idx: 1
  r_shift: 4
- l_pos: false
  l_idx: 2
  r_pos: true
  r_idx: 2
  r_shift: 6
3215:
- l_pos: true
  l_idx: 0
  r_pos: true
  r_idx: 0
  r_shift: 1
- l_pos: true
  l_idx: 0
  r_pos: true
  r_idx: 1
  r_shift: 3
- l_pos: true
  l_idx: 0
  r_pos: true
  r_idx: 2
  r_shift: 3
- l_pos: false
  l_idx: 0
  r_pos: true
  r_idx: 3
  r_shift: 4
3217:
- l_pos: true
  l_idx: 0
  r_pos: true
  r_idx: 0
  r_shift: 4
- l_pos: true
  l_idx: 1
  r_pos: true
  r_idx: 0
  r_shift: 3
- l_pos: true
  l_idx: 1
  r_pos: true
  r_idx: 2
  r_shift: 7
3219:
- l_pos: true
  l_idx: 0
  r_pos: true
  r_idx: 0
  r_shift: 2
- l_pos: true
  l_idx: 1
  r_pos: true
  r_idx: 1
  r_shift: 2
- l_pos: true
  l_idx: 1
  r_pos: true
  r_idx: 2
  r_shift: 5
- l_pos: false
  l_idx: 0
  r_pos: true
  r_idx: 3
  r_shift: 2
3221:
- l_pos: true
  l_idx: 0
  r_pos: true
  r_idx: 0
  r_shift: 2
- l_pos: true
  l_idx: 1
  r_pos: true
  r_idx: 1
  r_shift: 2
- l_pos: true
  l_idx: 1
  r_pos: true
  r_idx: 2
  r_shift: 5
- l_pos: true
  l_idx: 0
  r_pos: true
  r_idx: 3
  r_shift: 2
3223:
- l_pos: true
  l_idx: 0
  r_pos: true
  r_idx: 0
  r_shift: 1
- l_pos: true
  l_idx: 0
  r_pos: true
  r_idx: 1
  r_shift: 3
- l_pos: true
  l_idx: 1
  r_pos: true
  r_idx: 2
  r_shift: 4
- l_pos: false
  l_idx: 0
  r_pos: true
  r_idx: 3
  r_shift: 3
3225:
- l_pos: true
  l_idx: 0
  r_pos: true
  r_idx: 0
  r_shift: 7
- l_pos: true
  l_idx: 1
  r_pos: true
  r_idx: 1
  r_shift: 1
- l_pos: true
  l_idx: 1
  r_pos: true
  r_idx: 2
  r_shift: 3
3227:
- l_pos: false
  l_idx: 0
  r_pos: true
  r_idx: 0
  r_shift: 3
- l_pos: false
  l_idx: 1
  r_pos: true
  r_idx: 0
  r_shift: 5
- l_pos: true
  l_idx: 1
  r_pos: true
  r_idx: 2
  r_shift: 5
- l_pos: false
  l_idx: 0
  r_pos: true
  r_idx: 3
  r_shift: 2
3229:
- l_pos: false
  l_idx: 0
  r_pos: true
  r_idx: 0
  r_shift: 3
- l_pos: false
  l_idx: 1
  r_pos: true
  r_idx: 0
  r_shift: 5
- l_pos: true
  l_idx: 1
  r_pos: true
  r_idx: 2
  r_shift: 5
- l_pos: true
  l_idx: 0
  r_pos: true
  r_idx: 3
  r_shift: 2
3231:
- l_pos: true
  l_idx: 0
  r_pos: true
  r_idx: 0
  r_shift: 1
- l_pos: true
  l_idx: 0
  r_pos: true
  r_idx: 1
  r_shift: 3
- l_pos: true
  l_idx: 0
  r_pos: true
  r_idx: 2
  r_shift: 2
- l_pos: false
  l_idx: 0
  r_pos: true
  r_idx: 3
  r_shift: 5
3233:
- l_pos: true
  l_idx: 0
  r_pos: true
  r_idx: 0
  r_shift: 5
- l_pos: true
  l_idx: 1
  r_pos: false
  r_idx: 0
  r_shift: 3
- l_pos: true
  l_idx: 1
  r_pos: true
  r_idx: 2
  r_shift: 7
3235:
- l_pos: true
  l_idx: 0
  r_pos: true
  r_idx: 0
  r_shift: 3
- l_pos: true
  l_idx: 1
  r_pos: true
  r_idx: 0
  r_shift: 4
- l_pos: true
  l_idx: 1
  r_pos: true
  r_idx: 2
  r_shift: 5
- l_pos: false
  l_idx: 0
  r_pos: true
  r_idx: 3
  r_shift: 2
3237:
- l_pos: true
  l_idx: 0
  r_pos: true
  r_idx: 0
  r_shift: 3
- l_pos: true
  l_idx: 1
  r_pos: true
  r_idx: 0
  r_shift: 4
- l_pos: true
  l_idx: 1
  r_pos: true
  r_idx: 2
  r_shift: 5
- l_pos: true
  l_idx: 0
  r_pos: true
  r_idx: 3
  r_shift: 2
3239:
- l_pos: true
  l_idx: 0
  r_pos: true
  r_idx: 0
  r_shift: 1
- l_pos: true
  l_idx: 1
  r_pos: true
  r_idx: 1
  r_shift: 4
- l_pos: false
  l_idx: 1
  r_pos: true
  r_idx: 2
  r_shift: 3
- l_pos: false
  l_idx: 0
  r_pos: true
  r_idx: 3
  r_shift: 3
3241:
- l_pos: true
  l_idx: 0
  r_pos: true
  r_idx: 0
  r_shift: 1
- l_pos: true
  l_idx: 1
  r_pos: true
  r_idx: 1
  r_shift: 4
- l_pos: false
  l_idx: 1
  r_pos: true
  r_idx: 2
  r_shift: 3
- l_pos: true
  l_idx: 0
  r_pos: true
  r_idx: 3
  r_shift: 3
3243:
- l_pos: true
  l_idx: 0
  r_pos: true
  r_idx: 0
  r_shift: 1
- l_pos: true
  l_idx: 1
  r_pos: true
  r_idx: 1
  r_shift: 4
- l_pos: false
  l_idx: 1
  r_pos: true
  r_idx: 2
  r_shift: 3
- l_pos: true
  l_idx: 1
  r_pos: true
  r_idx: 3
  r_shift: 3
3245:
- l_pos: true
  l_idx: 0
  r_pos: true
  r_idx: 0
  r_shift: 1
- l_pos: true
  l_idx: 1
  r_pos: true
  r_idx: 1
  r_shift: 4
- l_pos: false
  l_idx: 0
  r_pos: true
  r_idx: 2
  r_shift: 2
- l_pos: false
  l_idx: 1
  r_pos: true
  r_idx: 3
  r_shift: 4
3247:
- l_pos: true
  l_idx: 0
  r_pos: true
  r_idx: 0
  r_shift: 4
- l_pos: true
  l_idx: 1
  r_pos: true
  r_idx: 1
  r_shift: 1
- l_pos: false
  l_idx: 1
  r_pos: true
  r_idx: 2
  r_shift: 6
3249:
- l_pos: true
  l_idx: 0
  r_pos: true
  r_idx: 0
  r_shift: 1
- l_pos: true
  l_idx: 1
  r_pos: true
  r_idx: 1
  r_shift: 4
- l_pos: false
  l_idx: 0
  r_pos: true
  r_idx: 2
  r_shift: 2
- l_pos: true
  l_idx: 0
  r_pos: true
  r_idx: 3
  r_shift: 4
3251:
- l_pos: true
  l_idx: 0
  r_pos: true
  r_idx: 0
  r_shift: 1
- l_pos: true
  l_idx: 1
  r_pos: true
  r_idx: 1
  r_shift: 4
- l_pos: false
  l_idx: 1
  r_pos: true
  r_idx: 2
  r_shift: 4
- l_pos: false
  l_idx: 0
  r_pos: true
  r_idx: 3
  r_shift: 2
3253:
- l_pos: true
  l_idx: 0
  r_pos: true
  r_idx: 0
  r_shift: 1
- l_pos: true
  l_idx: 1
  r_pos: true
  r_idx: 1
  r_shift: 4
- l_pos: false
  l_idx: 1
  r_pos: true
  r_idx: 2
  r_shift: 4
- l_pos: true
  l_idx: 0
  r_pos: true
  r_idx: 3
  r_shift: 2
3255:
- l_pos: false
  l_idx: 0
  r_pos: true
  r_idx: 0
  r_shift: 3
- l_pos: false
  l_idx: 1
  r_pos: true
  r_idx: 1
  r_shift: 4
- l_pos: false
  l_idx: 2
  r_pos: true
  r_idx: 2
  r_shift: 5
3257:
- l_pos: true
  l_idx: 0
  r_pos: true
  r_idx: 0
  r_shift: 1
- l_pos: true
  l_idx: 1
  r_pos: true
  r_idx: 1
  r_shift: 4
- l_pos: false
  l_idx: 0
  r_pos: true
  r_idx: 2
  r_shift: 3
- l_pos: true
  l_idx: 0
  r_pos: true
  r_idx: 3
  r_shift: 3
3259:
- l_pos: true
  l_idx: 0
  r_pos: true
  r_idx: 0
  r_shift: 1
- l_pos: true
  l_idx: 1
  r_pos: true
  r_idx: 1
  r_shift: 4
- l_pos: false
  l_idx: 0
  r_pos: true
  r_idx: 2
  r_shift: 4
- l_pos: false
  l_idx: 0
  r_pos: true
  r_idx: 3
  r_shift: 2
3261:
- l_pos: true
  l_idx: 0
  r_pos: true
  r_idx: 0
  r_shift: 1
- l_pos: true
  l_idx: 1
  r_pos: true
  r_idx: 1
  r_shift: 4
- l_pos: false
  l_idx: 1
  r_pos: true
  r_idx: 2
  r_shift: 6
3263:
- l_pos: true
  l_idx: 0
  r_pos: true
  r_idx: 0
  r_shift: 1
- l_pos: true
  l_idx: 1
  r_pos: true
  r_idx: 1
  r_shift: 4
- l_pos: false
  l_idx: 0
  r_pos: true
  r_idx: 2
  r_shift: 6
".
Definition text_52 : string := "3265:
- l_pos: true
  l_idx: 0
  r_pos: true
  r_idx: 0
  r_shift: 1
- l_pos: true
  l_idx: 1
  r_pos: true
  r_idx: 1
  r_shift: 4
- l_pos: true
  l_idx: 0
  r_pos: true
  r_idx: 2
  r_shift: 6
3267:
- l_pos: true
  l_idx: 0
  r_pos: true
  r_idx: 0
  r_shift: 1
- l_pos: true
  l_idx: 1
  r_pos: true
  r_idx: 1
  r_shift: 4
- l_pos: true
  l_idx: 1
  r_pos: true
  r_idx: 2
  r_shift: 6
3269:
- l_pos: true
  l_idx: 0
  r_pos: true
  r_idx: 0
  r_shift: 1
- l_pos: true
  l_idx: 1
  r_pos: true
  r_idx: 1
  r_shift: 4
- l_pos: true
  l_idx: 0
  r_pos: true
  r_idx: 2
  r_shift: 4
- l_pos: true
  l_idx: 0
  r_pos: true
  r_idx: 3
  r_shift: 2
3271:
- l_pos: true
  l_idx: 0
  r_pos: true
  r_idx: 0
  r_shift: 1
- l_pos: true
  l_idx: 1
  r_pos: true
  r_idx: 1
  r_shift: 4
- l_pos: true
  l_idx: 0
  r_pos: true
  r_idx: 2
  r_shift: 3
- l_pos: false
  l_idx: 0
  r_pos: true
  r_idx: 3
  r_shift: 3
3273:
- l_pos: true
  l_idx: 0
  r_pos: true
  r_idx: 0
  r_shift: 1
- l_pos: true
  l_idx: 1
  r_pos: true
  r_idx: 1
  r_shift: 4
- l_pos: true
  l_idx: 0
  r_pos: true
  r_idx: 2
  r_shift: 3
- l_pos: true
  l_idx: 0
  r_pos: true
  r_idx: 3
  r_shift: 3
3275:
- l_pos: true
  l_idx: 0
  r_pos: true
  r_idx: 0
  r_shift: 1
- l_pos: true
  l_idx: 1
  r_pos: true
  r_idx: 1
  r_shift: 4
- l_pos: true
  l_idx: 1
  r_pos: true
  r_idx: 2
  r_shift: 4
- l_pos: false
  l_idx: 0
  r_pos: true
  r_idx: 3
  r_shift: 2
3277:
- l_pos: true
  l_idx: 0
  r_pos: true
  r_idx: 0
  r_shift: 1
- l_pos: true
  l_idx: 1
  r_pos: true
  r_idx: 1
  r_shift: 4
- l_pos: true
  l_idx: 1
  r_pos: true
  r_idx: 2
  r_shift: 4
- l_pos: true
  l_idx: 0
  r_pos: true
  r_idx: 3
  r_shift: 2
3279:
- l_pos: true
  l_idx: 0
  r_pos: true
  r_idx: 0
  r_shift: 1
- l_pos: true
  l_idx: 1
  r_pos: true
  r_idx: 1
  r_shift: 4
- l_pos: true
  l_idx: 0
  r_pos: true
  r_idx: 2
  r_shift: 2
- l_pos: false
  l_idx: 0
  r_pos: true
  r_idx: 3
  r_shift: 4
3281:
- l_pos: true
  l_idx: 0
  r_pos: true
  r_idx: 0
  r_shift: 4
- l_pos: true
  l_idx: 1
  r_pos: true
  r_idx: 1
  r_shift: 1
- l_pos: true
  l_idx: 1
  r_pos: true
  r_idx: 2
  r_shift: 6
3283:
- l_pos: true
  l_idx: 0
  r_pos: true
  r_idx: 0
  r_shift: 1
- l_pos: true
  l_idx: 1
  r_pos: true
  r_idx: 1
  r_shift: 4
- l_pos: true
  l_idx: 0
  r_pos: true
  r_idx: 2
  r_shift: 2
- l_pos: true
  l_idx: 1
  r_pos: true
  r_idx: 3
  r_shift: 4
3285:
- l_pos: true
  l_idx: 0
  r_pos: true
  r_idx: 0
  r_shift: 1
- l_pos: true
  l_idx: 1
  r_pos: true
  r_idx: 1
  r_shift: 4
- l_pos: true
  l_idx: 1
  r_pos: true
  r_idx: 2
  r_shift: 3
- l_pos: false
  l_idx: 1
  r_pos: true
  r_idx: 3
  r_shift: 3
3287:
- l_pos: true
  l_idx: 0
  r_pos: true
  r_idx: 0
  r_shift: 1
- l_pos: true
  l_idx: 1
  r_pos: true
  r_idx: 1
  r_shift: 4
- l_pos: true
  l_idx: 1
  r_pos: true
  r_idx: 2
  r_shift: 3
- l_pos: false
  l_idx: 0
  r_pos: true
  r_idx: 3
  r_shift: 3
3289:
- l_pos: true
  l_idx: 0
  r_pos: true
  r_idx: 0
  r_shift: 1
- l_pos: true
  l_idx: 1
  r_pos: true
  r_idx: 1
  r_shift: 4
- l_pos: true
  l_idx: 1
  r_pos: true
  r_idx: 2
  r_shift: 3
- l_pos: true
  l_idx: 0
  r_pos: true
  r_idx: 3
  r_shift: 3
3291:
- l_pos: true
  l_idx: 0
  r_pos: true
  r_idx: 0
  r_shift: 3
- l_pos: true
  l_idx: 1
  r_pos: true
  r_idx: 0
  r_shift: 2
- l_pos: false
  l_idx: 1
  r_pos: true
  r_idx: 2
  r_shift: 6
- l_pos: false
  l_idx: 0
  r_pos: true
  r_idx: 3
  r_shift: 2
3293:
- l_pos: true
  l_idx: 0
  r_pos: true
  r_idx: 0
  r_shift: 3
- l_pos: true
  l_idx: 1
  r_pos: true
  r_idx: 0
  r_shift: 2
- l_pos: false
  l_idx: 1
  r_pos: true
  r_idx: 2
  r_shift: 6
- l_pos: true
  l_idx: 0
  r_pos: true
  r_idx: 3
  r_shift: 2
3295:
- l_pos: true
  l_idx: 0
  r_pos: true
  r_idx: 0
  r_shift: 1
- l_pos: true
  l_idx: 0
  r_pos: true
  r_idx: 1
  r_shift: 2
- l_pos: false
  l_idx: 0
  r_pos: true
  r_idx: 2
  r_shift: 3
- l_pos: false
  l_idx: 0
  r_pos: true
  r_idx: 3
  r_shift: 5
3297:
- l_pos: true
  l_idx: 0
  r_pos: true
  r_idx: 0
  r_shift: 1
- l_pos: true
  l_idx: 0
  r_pos: true
  r_idx: 1
  r_shift: 2
- l_pos: false
  l_idx: 0
  r_pos: true
  r_idx: 2
  r_shift: 3
- l_pos: true
  l_idx: 0
  r_pos: true
  r_idx: 3
  r_shift: 5
3299:
- l_pos: false
  l_idx: 0
  r_pos: true
  r_idx: 0
  r_shift: 3
- l_pos: false
  l_idx: 0
  r_pos: true
  r_idx: 1
  r_shift: 1
- l_pos: false
  l_idx: 1
  r_pos: true
  r_idx: 2
  r_shift: 6
- l_pos: false
  l_idx: 0
  r_pos: true
  r_idx: 3
  r_shift: 2
3301:
- l_pos: false
  l_idx: 0
  r_pos: true
  r_idx: 0
  r_shift: 3
- l_pos: false
  l_idx: 0
  r_pos: true
  r_idx: 1
  r_shift: 1
- l_pos: false
  l_idx: 1
  r_pos: true
  r_idx: 2
  r_shift: 6
- l_pos: true
  l_idx: 0
  r_pos: true
  r_idx: 3
  r_shift: 2
3303:
- l_pos: true
  l_idx: 0
  r_pos: true
  r_idx: 0
  r_shift: 1
- l_pos: true
  l_idx: 0
  r_pos: true
  r_idx: 1
  r_shift: 2
- l_pos: false
  l_idx: 1
  r_pos: true
  r_idx: 2
  r_shift: 5
- l_pos: false
  l_idx: 0
  r_pos: true
  r_idx: 3
  r_shift: 3
3305:
- l_pos: true
  l_idx: 0
  r_pos: true
  r_idx: 0
  r_shift: 1
- l_pos: true
  l_idx: 0
  r_pos: true
  r_idx: 1
  r_shift: 2
- l_pos: false
  l_idx: 1
  r_pos: true
  r_idx: 2
  r_shift: 5
- l_pos: true
  l_idx: 0
  r_pos: true
  r_idx: 3
  r_shift: 3
3307:
- l_pos: true
  l_idx: 0
  r_pos: true
  r_idx: 0
  r_shift: 2
- l_pos: true
  l_idx: 1
  r_pos: true
  r_idx: 0
  r_shift: 3
- l_pos: false
  l_idx: 1
  r_pos: true
  r_idx: 2
  r_shift: 6
- l_pos: false
  l_idx: 0
  r_pos: true
  r_idx: 3
  r_shift: 2
3309:
- l_pos: true
  l_idx: 0
  r_pos: true
  r_idx: 0
  r_shift: 2
- l_pos: true
  l_idx: 1
  r_pos: true
  r_idx: 0
  r_shift: 3
- l_pos: false
  l_idx: 1
  r_pos: true
  r_idx: 2
  r_shift: 6
- l_pos: true
  l_idx: 0
  r_pos: true
  r_idx: 3
  r_shift: 2
3311:
- l_pos: true
  l_idx: 0
  r_pos: true
  r_idx: 0
  r_shift: 4
- l_pos: true
  l_idx: 1
  r_pos: false
  r_idx: 0
  r_shift: 2
- l_pos: false
  l_idx: 1
  r_pos: true
  r_idx: 2
  r_shift: 8
3313:
- l_pos: false
  l_idx: 0
  r_pos: true
  r_idx: 0
  r_shift: 4
- l_pos: true
  l_idx: 1
  r_pos: false
  r_idx: 0
  r_shift: 1
- l_pos: false
  l_idx: 1
  r_pos: true
  r_idx: 2
  r_shift: 8
3315:
- l_pos: false
  l_idx: 0
  r_pos: true
  r_idx: 0
  r_shift: 8
- l_pos: true
  l_idx: 1
  r_pos: true
  r_idx: 1
  r_shift: 1
- l_pos: true
  l_idx: 1
  r_pos: true
  r_idx: 2
  r_shift: 2
3317:
- l_pos: true
  l_idx: 0
  r_pos: true
  r_idx: 0
  r_shift: 1
- l_pos: true
  l_idx: 0
  r_pos: true
  r_idx: 1
  r_shift: 2
- l_pos: false
  l_idx: 1
  r_pos: true
  r_idx: 2
  r_shift: 6
- l_pos: true
  l_idx: 0
  r_pos: true
  r_idx: 3
  r_shift: 2
3319:
- l_pos: true
  l_idx: 0
  r_pos: true
  r_idx: 0
  r_shift: 3
- l_pos: true
  l_idx: 1
  r_pos: true
  r_idx: 0
  r_shift: 2
- l_pos: false
  l_idx: 1
  r_pos: true
  r_idx: 2
  r_shift: 8
3321:
- l_pos: false
  l_idx: 0
  r_pos: true
  r_idx: 0
  r_shift: 3
- l_pos: false
  l_idx: 0
  r_pos: true
  r_idx: 1
  r_shift: 1
- l_pos: false
  l_idx: 1
  r_pos: true
  r_idx: 2
  r_shift: 8
3323:
- l_pos: true
  l_idx: 0
  r_pos: true
  r_idx: 0
  r_shift: 2
- l_pos: true
  l_idx: 1
  r_pos: true
  r_idx: 0
  r_shift: 3
- l_pos: false
  l_idx: 1
  r_pos: true
  r_idx: 2
  r_shift: 8
3325:
- l_pos: true
  l_idx: 0
  r_pos: true
  r_idx: 0
  r_shift: 1
- l_pos: true
  l_idx: 0
  r_pos: true
  r_idx: 1
  r_shift: 2
- l_pos: false
  l_idx: 1
  r_pos: true
  r_idx: 2
  r_shift: 8
3327:
- l_pos: true
  l_idx: 0
  r_pos: true
  r_idx: 0
  r_shift: 1
- l_pos: true
  l_idx: 0
  r_pos: true
  r_idx: 1
  r_shift: 2
- l_pos: false
  l_idx: 0
  r_pos: true
  r_idx: 2
  r_shift: 8
".
Definition text_53 : string := "3329:
- l_pos: true
  l_idx: 0
  r_pos: true
  r_idx: 0
  r_shift: 1
- l_pos: true
  l_idx: 0
  r_pos: true
  r_idx: 1
  r_shift: 2
- l_pos: true
  l_idx: 0
  r_pos: true
  r_idx: 2
  r_shift: 8
3331:
- l_pos: true
  l_idx: 0
  r_pos: true
  r_idx: 0
  r_shift: 1
- l_pos: true
  l_idx: 0
  r_pos: true
  r_idx: 1
  r_shift: 2
- l_pos: true
  l_idx: 1
  r_pos: true
  r_idx: 2
  r_shift: 8
3333:
- l_pos: true
  l_idx: 0
  r_pos: true
  r_idx: 0
  r_shift: 2
- l_pos: true
  l_idx: 1
  r_pos: true
  r_idx: 0
  r_shift: 3
- l_pos: true
  l_idx: 1
  r_pos: true
  r_idx: 2
  r_shift: 8
3335:
- l_pos: false
  l_idx: 0
  r_pos: true
  r_idx: 0
  r_shift: 3
- l_pos: false
  l_idx: 0
  r_pos: true
  r_idx: 1
  r_shift: 1
- l_pos: true
  l_idx: 1
  r_pos: true
  r_idx: 2
  r_shift: 8
3337:
- l_pos: true
  l_idx: 0
  r_pos: true
  r_idx: 0
  r_shift: 3
- l_pos: true
  l_idx: 1
  r_pos: true
  r_idx: 0
  r_shift: 2
- l_pos: true
  l_idx: 1
  r_pos: true
  r_idx: 2
  r_shift: 8
3339:
- l_pos: true
  l_idx: 0
  r_pos: true
  r_idx: 0
  r_shift: 1
- l_pos: true
  l_idx: 0
  r_pos: true
  r_idx: 1
  r_shift: 2
- l_pos: true
  l_idx: 1
  r_pos: true
  r_idx: 2
  r_shift: 6
- l_pos: false
  l_idx: 0
  r_pos: true
  r_idx: 3
  r_shift: 2
3341:
- l_pos: true
  l_idx: 0
  r_pos: true
  r_idx: 0
  r_shift: 8
- l_pos: true
  l_idx: 1
  r_pos: true
  r_idx: 1
  r_shift: 1
- l_pos: true
  l_idx: 1
  r_pos: true
  r_idx: 2
  r_shift: 2
3343:
- l_pos: false
  l_idx: 0
  r_pos: true
  r_idx: 0
  r_shift: 4
- l_pos: true
  l_idx: 1
  r_pos: false
  r_idx: 0
  r_shift: 1
- l_pos: true
  l_idx: 1
  r_pos: true
  r_idx: 2
  r_shift: 8
3345:
- l_pos: true
  l_idx: 0
  r_pos: true
  r_idx: 0
  r_shift: 4
- l_pos: true
  l_idx: 1
  r_pos: false
  r_idx: 0
  r_shift: 2
- l_pos: true
  l_idx: 1
  r_pos: true
  r_idx: 2
  r_shift: 8
3347:
- l_pos: true
  l_idx: 0
  r_pos: true
  r_idx: 0
  r_shift: 2
- l_pos: true
  l_idx: 1
  r_pos: true
  r_idx: 0
  r_shift: 3
- l_pos: true
  l_idx: 1
  r_pos: true
  r_idx: 2
  r_shift: 6
- l_pos: false
  l_idx: 0
  r_pos: true
  r_idx: 3
  r_shift: 2
3349:
- l_pos: true
  l_idx: 0
  r_pos: true
  r_idx: 0
  r_shift: 2
- l_pos: true
  l_idx: 1
  r_pos: true
  r_idx: 0
  r_shift: 3
- l_pos: true
  l_idx: 1
  r_pos: true
  r_idx: 2
  r_shift: 6
- l_pos: true
  l_idx: 0
  r_pos: true
  r_idx: 3
  r_shift: 2
3351:
- l_pos: false
  l_idx: 0
  r_pos: true
  r_idx: 0
  r_shift: 3
- l_pos: false
  l_idx: 1
  r_pos: true
  r_idx: 1
  r_shift: 4
- l_pos: false
  l_idx: 0
  r_pos: true
  r_idx: 2
  r_shift: 2
- l_pos: false
  l_idx: 0
  r_pos: true
  r_idx: 3
  r_shift: 3
3353:
- l_pos: false
  l_idx: 0
  r_pos: true
  r_idx: 0
  r_shift: 3
- l_pos: false
  l_idx: 1
  r_pos: true
  r_idx: 1
  r_shift: 4
- l_pos: false
  l_idx: 1
  r_pos: true
  r_idx: 2
  r_shift: 5
3355:
- l_pos: false
  l_idx: 0
  r_pos: true
  r_idx: 0
  r_shift: 3
- l_pos: false
  l_idx: 1
  r_pos: true
  r_idx: 1
  r_shift: 4
- l_pos: false
  l_idx: 0
  r_pos: true
  r_idx: 2
  r_shift: 3
- l_pos: false
  l_idx: 0
  r_pos: true
  r_idx: 3
  r_shift: 2
3357:
- l_pos: false
  l_idx: 0
  r_pos: true
  r_idx: 0
  r_shift: 3
- l_pos: false
  l_idx: 1
  r_pos: true
  r_idx: 1
  r_shift: 4
- l_pos: false
  l_idx: 0
  r_pos: true
  r_idx: 2
  r_shift: 3
- l_pos: true
  l_idx: 0
  r_pos: true
  r_idx: 3
  r_shift: 2
3359:
- l_pos: false
  l_idx: 0
  r_pos: true
  r_idx: 0
  r_shift: 3
- l_pos: false
  l_idx: 1
  r_pos: true
  r_idx: 1
  r_shift: 4
- l_pos: false
  l_idx: 0
  r_pos: true
  r_idx: 2
  r_shift: 5
3361:
- l_pos: false
  l_idx: 0
  r_pos: true
  r_idx: 0
  r_shift: 3
- l_pos: false
  l_idx: 1
  r_pos: true
  r_idx: 1
  r_shift: 4
- l_pos: true
  l_idx: 0
  r_pos: true
  r_idx: 2
  r_shift: 5
3363:
- l_pos: false
  l_idx: 0
  r_pos: true
  r_idx: 0
  r_shift: 3
- l_pos: false
  l_idx: 1
  r_pos: true
  r_idx: 1
  r_shift: 4
- l_pos: true
  l_idx: 0
  r_pos: true
  r_idx: 2
  r_shift: 3
- l_pos: false
  l_idx: 0
  r_pos: true
  r_idx: 3
  r_shift: 2
3365:
- l_pos: false
  l_idx: 0
  r_pos: true
  r_idx: 0
  r_shift: 3
- l_pos: false
  l_idx: 1
  r_pos: true
  r_idx: 1
  r_shift: 4
- l_pos: true
  l_idx: 0
  r_pos: true
  r_idx: 2
  r_shift: 3
- l_pos: true
  l_idx: 0
  r_pos: true
  r_idx: 3
  r_shift: 2
3367:
- l_pos: false
  l_idx: 0
  r_pos: true
  r_idx: 0
  r_shift: 3
- l_pos: false
  l_idx: 1
  r_pos: true
  r_idx: 1
  r_shift: 4
- l_pos: true
  l_idx: 1
  r_pos: true
  r_idx: 2
  r_shift: 5
3369:
- l_pos: false
  l_idx: 0
  r_pos: true
  r_idx: 0
  r_shift: 3
- l_pos: false
  l_idx: 1
  r_pos: true
  r_idx: 1
  r_shift: 4
- l_pos: true
  l_idx: 0
  r_pos: true
  r_idx: 2
  r_shift: 2
- l_pos: true
  l_idx: 0
  r_pos: true
  r_idx: 3
  r_shift: 3
3371:
- l_pos: true
  l_idx: 0
  r_pos: true
  r_idx: 0
  r_shift: 2
- l_pos: false
  l_idx: 1
  r_pos: true
  r_idx: 0
  r_shift: 5
- l_pos: false
  l_idx: 1
  r_pos: true
  r_idx: 2
  r_shift: 3
- l_pos: false
  l_idx: 1
  r_pos: true
  r_idx: 3
  r_shift: 4
3373:
- l_pos: false
  l_idx: 0
  r_pos: true
  r_idx: 0
  r_shift: 3
- l_pos: false
  l_idx: 1
  r_pos: true
  r_idx: 1
  r_shift: 4
- l_pos: true
  l_idx: 1
  r_pos: true
  r_idx: 2
  r_shift: 4
- l_pos: false
  l_idx: 0
  r_pos: true
  r_idx: 3
  r_shift: 1
3375:
- l_pos: false
  l_idx: 0
  r_pos: true
  r_idx: 0
  r_shift: 4
- l_pos: false
  l_idx: 1
  r_pos: true
  r_idx: 1
  r_shift: 3
- l_pos: true
  l_idx: 1
  r_pos: true
  r_idx: 2
  r_shift: 5
3377:
- l_pos: false
  l_idx: 0
  r_pos: true
  r_idx: 0
  r_shift: 3
- l_pos: false
  l_idx: 1
  r_pos: true
  r_idx: 1
  r_shift: 4
- l_pos: true
  l_idx: 0
  r_pos: true
  r_idx: 2
  r_shift: 1
- l_pos: true
  l_idx: 0
  r_pos: true
  r_idx: 3
  r_shift: 4
3379:
- l_pos: true
  l_idx: 0
  r_pos: true
  r_idx: 0
  r_shift: 6
- l_pos: true
  l_idx: 1
  r_pos: true
  r_idx: 1
  r_shift: 1
- l_pos: true
  l_idx: 1
  r_pos: true
  r_idx: 2
  r_shift: 2
- l_pos: false
  l_idx: 0
  r_pos: true
  r_idx: 3
  r_shift: 2
3381:
- l_pos: true
  l_idx: 0
  r_pos: true
  r_idx: 0
  r_shift: 6
- l_pos: true
  l_idx: 1
  r_pos: true
  r_idx: 1
  r_shift: 1
- l_pos: true
  l_idx: 1
  r_pos: true
  r_idx: 2
  r_shift: 2
- l_pos: true
  l_idx: 0
  r_pos: true
  r_idx: 3
  r_shift: 2
3383:
- l_pos: true
  l_idx: 0
  r_pos: true
  r_idx: 0
  r_shift: 3
- l_pos: true
  l_idx: 1
  r_pos: true
  r_idx: 1
  r_shift: 1
- l_pos: false
  l_idx: 1
  r_pos: true
  r_idx: 2
  r_shift: 4
- l_pos: false
  l_idx: 0
  r_pos: true
  r_idx: 3
  r_shift: 3
3385:
- l_pos: true
  l_idx: 0
  r_pos: true
  r_idx: 0
  r_shift: 3
- l_pos: true
  l_idx: 1
  r_pos: true
  r_idx: 1
  r_shift: 1
- l_pos: false
  l_idx: 1
  r_pos: true
  r_idx: 2
  r_shift: 4
- l_pos: true
  l_idx: 0
  r_pos: true
  r_idx: 3
  r_shift: 3
3387:
- l_pos: false
  l_idx: 0
  r_pos: true
  r_idx: 0
  r_shift: 3
- l_pos: false
  l_idx: 1
  r_pos: true
  r_idx: 1
  r_shift: 4
- l_pos: true
  l_idx: 1
  r_pos: true
  r_idx: 2
  r_shift: 3
- l_pos: false
  l_idx: 0
  r_pos: true
  r_idx: 3
  r_shift: 2
3389:
- l_pos: false
  l_idx: 0
  r_pos: true
  r_idx: 0
  r_shift: 3
- l_pos: false
  l_idx: 1
  r_pos: true
  r_idx: 1
  r_shift: 4
- l_pos: true
  l_idx: 1
  r_pos: true
  r_idx: 2
  r_shift: 3
- l_pos: true
  l_idx: 0
  r_pos: true
  r_idx: 3
  r_shift: 2
3391:
- l_pos: true
  l_idx: 0
  r_pos: true
  r_idx: 0
  r_shift: 1
- l_pos: true
  l_idx: 0
  r_pos: true
  r_idx: 1
  r_shift: 2
- l_pos: true
  l_idx: 0
  r_pos: true
  r_idx: 2
  r_shift: 2
- l_pos: false
  l_idx: 0
  r_pos: true
  r_idx: 3
  r_shift: 6
".
Definition text_54 : string := "3393:
- l_pos: true
  l_idx: 0
  r_pos: true
  r_idx: 0
  r_shift: 1
- l_pos: true
  l_idx: 0
  r_pos: true
  r_idx: 1
  r_shift: 2
- l_pos: true
  l_idx: 0
  r_pos: true
  r_idx: 2
  r_shift: 2
- l_pos: true
  l_idx: 0
  r_pos: true
  r_idx: 3
  r_shift: 6
3395:
- l_pos: true
  l_idx: 0
  r_pos: true
  r_idx: 0
  r_shift: 4
- l_pos: true
  l_idx: 1
  r_pos: false
  r_idx: 0
  r_shift: 2
- l_pos: true
  l_idx: 1
  r_pos: true
  r_idx: 2
  r_shift: 6
- l_pos: false
  l_idx: 0
  r_pos: true
  r_idx: 3
  r_shift: 2
3397:
- l_pos: true
  l_idx: 0
  r_pos: true
  r_idx: 0
  r_shift: 4
- l_pos: true
  l_idx: 1
  r_pos: false
  r_idx: 0
  r_shift: 2
- l_pos: true
  l_idx: 1
  r_pos: true
  r_idx: 2
  r_shift: 6
- l_pos: true
  l_idx: 0
  r_pos: true
  r_idx: 3
  r_shift: 2
3399:
- l_pos: true
  l_idx: 0
  r_pos: true
  r_idx: 0
  r_shift: 3
- l_pos: true
  l_idx: 1
  r_pos: true
  r_idx: 0
  r_shift: 2
- l_pos: true
  l_idx: 1
  r_pos: true
  r_idx: 2
  r_shift: 5
- l_pos: false
  l_idx: 0
  r_pos: true
  r_idx: 3
  r_shift: 3
3401:
- l_pos: true
  l_idx: 0
  r_pos: true
  r_idx: 0
  r_shift: 3
- l_pos: true
  l_idx: 1
  r_pos: true
  r_idx: 0
  r_shift: 2
- l_pos: true
  l_idx: 1
  r_pos: true
  r_idx: 2
  r_shift: 5
- l_pos: true
  l_idx: 0
  r_pos: true
  r_idx: 3
  r_shift: 3
3403:
- l_pos: false
  l_idx: 0
  r_pos: true
  r_idx: 0
  r_shift: 6
- l_pos: false
  l_idx: 1
  r_pos: true
  r_idx: 1
  r_shift: 3
- l_pos: false
  l_idx: 1
  r_pos: true
  r_idx: 2
  r_shift: 2
- l_pos: true
  l_idx: 0
  r_pos: true
  r_idx: 3
  r_shift: 1
3405:
- l_pos: true
  l_idx: 0
  r_pos: true
  r_idx: 0
  r_shift: 1
- l_pos: true
  l_idx: 1
  r_pos: true
  r_idx: 1
  r_shift: 3
- l_pos: false
  l_idx: 1
  r_pos: true
  r_idx: 2
  r_shift: 3
- l_pos: false
  l_idx: 1
  r_pos: true
  r_idx: 3
  r_shift: 4
3407:
- l_pos: true
  l_idx: 0
  r_pos: true
  r_idx: 0
  r_shift: 1
- l_pos: true
  l_idx: 1
  r_pos: true
  r_idx: 1
  r_shift: 3
- l_pos: false
  l_idx: 1
  r_pos: true
  r_idx: 2
  r_shift: 3
- l_pos: false
  l_idx: 0
  r_pos: true
  r_idx: 3
  r_shift: 4
3409:
- l_pos: true
  l_idx: 0
  r_pos: true
  r_idx: 0
  r_shift: 1
- l_pos: true
  l_idx: 1
  r_pos: true
  r_idx: 1
  r_shift: 3
- l_pos: false
  l_idx: 1
  r_pos: true
  r_idx: 2
  r_shift: 3
- l_pos: true
  l_idx: 0
  r_pos: true
  r_idx: 3
  r_shift: 4
3411:
- l_pos: false
  l_idx: 0
  r_pos: true
  r_idx: 0
  r_shift: 5
- l_pos: false
  l_idx: 1
  r_pos: true
  r_idx: 1
  r_shift: 3
- l_pos: false
  l_idx: 1
  r_pos: true
  r_idx: 2
  r_shift: 3
- l_pos: true
  l_idx: 0
  r_pos: true
  r_idx: 3
  r_shift: 1
3413:
- l_pos: true
  l_idx: 0
  r_pos: true
  r_idx: 0
  r_shift: 1
- l_pos: false
  l_idx: 1
  r_pos: true
  r_idx: 0
  r_shift: 6
- l_pos: false
  l_idx: 2
  r_pos: true
  r_idx: 2
  r_shift: 3
- l_pos: false
  l_idx: 1
  r_pos: true
  r_idx: 3
  r_shift: 3
3415:
- l_pos: true
  l_idx: 0
  r_pos: true
  r_idx: 0
  r_shift: 2
- l_pos: false
  l_idx: 1
  r_pos: true
  r_idx: 0
  r_shift: 5
- l_pos: false
  l_idx: 1
  r_pos: true
  r_idx: 2
  r_shift: 4
- l_pos: false
  l_idx: 0
  r_pos: true
  r_idx: 3
  r_shift: 3
3417:
- l_pos: true
  l_idx: 0
  r_pos: true
  r_idx: 0
  r_shift: 2
- l_pos: false
  l_idx: 1
  r_pos: true
  r_idx: 0
  r_shift: 5
- l_pos: false
  l_idx: 1
  r_pos: true
  r_idx: 2
  r_shift: 4
- l_pos: true
  l_idx: 0
  r_pos: true
  r_idx: 3
  r_shift: 3
3419:
- l_pos: true
  l_idx: 0
  r_pos: true
  r_idx: 0
  r_shift: 3
- l_pos: true
  l_idx: 1
  r_pos: true
  r_idx: 1
  r_shift: 1
- l_pos: false
  l_idx: 1
  r_pos: true
  r_idx: 2
  r_shift: 5
- l_pos: false
  l_idx: 0
  r_pos: true
  r_idx: 3
  r_shift: 2
3421:
- l_pos: true
  l_idx: 0
  r_pos: true
  r_idx: 0
  r_shift: 3
- l_pos: true
  l_idx: 1
  r_pos: true
  r_idx: 1
  r_shift: 1
- l_pos: false
  l_idx: 1
  r_pos: true
  r_idx: 2
  r_shift: 5
- l_pos: true
  l_idx: 0
  r_pos: true
  r_idx: 3
  r_shift: 2
3423:
- l_pos: false
  l_idx: 0
  r_pos: true
  r_idx: 0
  r_shift: 3
- l_pos: false
  l_idx: 0
  r_pos: true
  r_idx: 1
  r_shift: 2
- l_pos: false
  l_idx: 0
  r_pos: true
  r_idx: 2
  r_shift: 2
- l_pos: false
  l_idx: 0
  r_pos: true
  r_idx: 3
  r_shift: 5
3425:
- l_pos: false
  l_idx: 0
  r_pos: true
  r_idx: 0
  r_shift: 5
- l_pos: true
  l_idx: 1
  r_pos: false
  r_idx: 0
  r_shift: 2
- l_pos: false
  l_idx: 1
  r_pos: true
  r_idx: 2
  r_shift: 7
3427:
- l_pos: false
  l_idx: 0
  r_pos: true
  r_idx: 0
  r_shift: 3
- l_pos: false
  l_idx: 0
  r_pos: true
  r_idx: 1
  r_shift: 2
- l_pos: false
  l_idx: 1
  r_pos: true
  r_idx: 2
  r_shift: 5
- l_pos: false
  l_idx: 0
  r_pos: true
  r_idx: 3
  r_shift: 2
3429:
- l_pos: false
  l_idx: 0
  r_pos: true
  r_idx: 0
  r_shift: 7
- l_pos: false
  l_idx: 1
  r_pos: true
  r_idx: 1
  r_shift: 3
- l_pos: false
  l_idx: 1
  r_pos: true
  r_idx: 2
  r_shift: 2
3431:
- l_pos: true
  l_idx: 0
  r_pos: true
  r_idx: 0
  r_shift: 1
- l_pos: true
  l_idx: 1
  r_pos: true
  r_idx: 1
  r_shift: 3
- l_pos: false
  l_idx: 1
  r_pos: true
  r_idx: 2
  r_shift: 4
- l_pos: false
  l_idx: 0
  r_pos: true
  r_idx: 3
  r_shift: 3
3433:
- l_pos: true
  l_idx: 0
  r_pos: true
  r_idx: 0
  r_shift: 1
- l_pos: true
  l_idx: 1
  r_pos: true
  r_idx: 1
  r_shift: 3
- l_pos: false
  l_idx: 1
  r_pos: true
  r_idx: 2
  r_shift: 4
- l_pos: true
  l_idx: 0
  r_pos: true
  r_idx: 3
  r_shift: 3
3435:
- l_pos: true
  l_idx: 0
  r_pos: true
  r_idx: 0
  r_shift: 2
- l_pos: false
  l_idx: 1
  r_pos: true
  r_idx: 0
  r_shift: 5
- l_pos: false
  l_idx: 1
  r_pos: true
  r_idx: 2
  r_shift: 5
- l_pos: false
  l_idx: 0
  r_pos: true
  r_idx: 3
  r_shift: 2
3437:
- l_pos: true
  l_idx: 0
  r_pos: true
  r_idx: 0
  r_shift: 2
- l_pos: false
  l_idx: 1
  r_pos: true
  r_idx: 0
  r_shift: 5
- l_pos: false
  l_idx: 1
  r_pos: true
  r_idx: 2
  r_shift: 5
- l_pos: true
  l_idx: 0
  r_pos: true
  r_idx: 3
  r_shift: 2
3439:
- l_pos: false
  l_idx: 0
  r_pos: true
  r_idx: 0
  r_shift: 3
- l_pos: false
  l_idx: 0
  r_pos: true
  r_idx: 1
  r_shift: 2
- l_pos: false
  l_idx: 0
  r_pos: true
  r_idx: 2
  r_shift: 3
- l_pos: false
  l_idx: 0
  r_pos: true
  r_idx: 3
  r_shift: 4
3441:
- l_pos: false
  l_idx: 0
  r_pos: true
  r_idx: 0
  r_shift: 5
- l_pos: false
  l_idx: 1
  r_pos: true
  r_idx: 1
  r_shift: 3
- l_pos: false
  l_idx: 1
  r_pos: true
  r_idx: 2
  r_shift: 4
3443:
- l_pos: true
  l_idx: 0
  r_pos: true
  r_idx: 0
  r_shift: 1
- l_pos: true
  l_idx: 1
  r_pos: true
  r_idx: 1
  r_shift: 3
- l_pos: false
  l_idx: 1
  r_pos: true
  r_idx: 2
  r_shift: 5
- l_pos: false
  l_idx: 0
  r_pos: true
  r_idx: 3
  r_shift: 2
3445:
- l_pos: true
  l_idx: 0
  r_pos: true
  r_idx: 0
  r_shift: 1
- l_pos: true
  l_idx: 1
  r_pos: true
  r_idx: 1
  r_shift: 3
- l_pos: false
  l_idx: 1
  r_pos: true
  r_idx: 2
  r_shift: 5
- l_pos: true
  l_idx: 0
  r_pos: true
  r_idx: 3
  r_shift: 2
3447:
- l_pos: true
  l_idx: 0
  r_pos: true
  r_idx: 0
  r_shift: 3
- l_pos: true
  l_idx: 1
  r_pos: true
  r_idx: 1
  r_shift: 1
- l_pos: false
  l_idx: 1
  r_pos: true
  r_idx: 2
  r_shift: 7
3449:
- l_pos: false
  l_idx: 0
  r_pos: true
  r_idx: 0
  r_shift: 3
- l_pos: false
  l_idx: 0
  r_pos: true
  r_idx: 1
  r_shift: 2
- l_pos: false
  l_idx: 1
  r_pos: true
  r_idx: 2
  r_shift: 7
3451:
- l_pos: true
  l_idx: 0
  r_pos: true
  r_idx: 0
  r_shift: 2
- l_pos: false
  l_idx: 1
  r_pos: true
  r_idx: 0
  r_shift: 5
- l_pos: false
  l_idx: 1
  r_pos: true
  r_idx: 2
  r_shift: 7
3453:
- l_pos: true
  l_idx: 0
  r_pos: true
  r_idx: 0
  r_shift: 1
- l_pos: true
  l_idx: 1
  r_pos: true
  r_idx: 1
  r_shift: 3
- l_pos: false
  l_idx: 1
  r_pos: true
  r_idx: 2
  r_shift: 7
3455:
- l_pos: false
  l_idx: 0
  r_pos: true
  r_idx: 0
  r_shift: 3
- l_pos: false
  l_idx: 0
  r_pos: true
  r_idx: 1
  r_shift: 2
- l_pos: false
  l_idx: 0
  r_pos: true
  r_idx: 2
  r_shift: 7
".
Definition text_55 : string := "3457:
- l_pos: false
  l_idx: 0
  r_pos: true
  r_idx: 0
  r_shift: 3
- l_pos: false
  l_idx: 0
  r_pos: true
  r_idx: 1
  r_shift: 2
- l_pos: true
  l_idx: 0
  r_pos: true
  r_idx: 2
  r_shift: 7
3459:
- l_pos: true
  l_idx: 0
  r_pos: true
  r_idx: 0
  r_shift: 1
- l_pos: true
  l_idx: 1
  r_pos: true
  r_idx: 1
  r_shift: 3
- l_pos: true
  l_idx: 1
  r_pos: true
  r_idx: 2
  r_shift: 7
3461:
- l_pos: true
  l_idx: 0
  r_pos: true
  r_idx: 0
  r_shift: 2
- l_pos: false
  l_idx: 1
  r_pos: true
  r_idx: 0
  r_shift: 5
- l_pos: true
  l_idx: 1
  r_pos: true
  r_idx: 2
  r_shift: 7
3463:
- l_pos: false
  l_idx: 0
  r_pos: true
  r_idx: 0
  r_shift: 3
- l_pos: false
  l_idx: 0
  r_pos: true
  r_idx: 1
  r_shift: 2
- l_pos: true
  l_idx: 1
  r_pos: true
  r_idx: 2
  r_shift: 7
3465:
- l_pos: true
  l_idx: 0
  r_pos: true
  r_idx: 0
  r_shift: 3
- l_pos: true
  l_idx: 1
  r_pos: true
  r_idx: 1
  r_shift: 1
- l_pos: true
  l_idx: 1
  r_pos: true
  r_idx: 2
  r_shift: 7
3467:
- l_pos: false
  l_idx: 0
  r_pos: true
  r_idx: 0
  r_shift: 3
- l_pos: false
  l_idx: 1
  r_pos: true
  r_idx: 1
  r_shift: 5
- l_pos: false
  l_idx: 0
  r_pos: true
  r_idx: 2
  r_shift: 2
- l_pos: false
  l_idx: 0
  r_pos: true
  r_idx: 3
  r_shift: 2
3469:
- l_pos: false
  l_idx: 0
  r_pos: true
  r_idx: 0
  r_shift: 3
- l_pos: false
  l_idx: 1
  r_pos: true
  r_idx: 1
  r_shift: 5
- l_pos: false
  l_idx: 0
  r_pos: true
  r_idx: 2
  r_shift: 2
- l_pos: true
  l_idx: 0
  r_pos: true
  r_idx: 3
  r_shift: 2
3471:
- l_pos: false
  l_idx: 0
  r_pos: true
  r_idx: 0
  r_shift: 3
- l_pos: false
  l_idx: 1
  r_pos: true
  r_idx: 1
  r_shift: 5
- l_pos: false
  l_idx: 0
  r_pos: true
  r_idx: 2
  r_shift: 4
3473:
- l_pos: false
  l_idx: 0
  r_pos: true
  r_idx: 0
  r_shift: 3
- l_pos: false
  l_idx: 1
  r_pos: true
  r_idx: 1
  r_shift: 5
- l_pos: true
  l_idx: 0
  r_pos: true
  r_idx: 2
  r_shift: 4
3475:
- l_pos: false
  l_idx: 0
  r_pos: true
  r_idx: 0
  r_shift: 3
- l_pos: false
  l_idx: 1
  r_pos: true
  r_idx: 1
  r_shift: 5
- l_pos: true
  l_idx: 0
  r_pos: true
  r_idx: 2
  r_shift: 2
- l_pos: false
  l_idx: 0
  r_pos: true
  r_idx: 3
  r_shift: 2
3477:
- l_pos: false
  l_idx: 0
  r_pos: true
  r_idx: 0
  r_shift: 3
- l_pos: false
  l_idx: 1
  r_pos: true
  r_idx: 1
  r_shift: 5
- l_pos: true
  l_idx: 0
  r_pos: true
  r_idx: 2
  r_shift: 2
- l_pos: true
  l_idx: 0
  r_pos: true
  r_idx: 3
  r_shift: 2
3479:
- l_pos: false
  l_idx: 0
  r_pos: true
  r_idx: 0
  r_shift: 3
- l_pos: false
  l_idx: 1
  r_pos: true
  r_idx: 1
  r_shift: 5
- l_pos: true
  l_idx: 1
  r_pos: true
  r_idx: 2
  r_shift: 4
3481:
- l_pos: false
  l_idx: 0
  r_pos: true
  r_idx: 0
  r_shift: 3
- l_pos: false
  l_idx: 1
  r_pos: true
  r_idx: 1
  r_shift: 5
- l_pos: true
  l_idx: 0
  r_pos: true
  r_idx: 2
  r_shift: 1
- l_pos: true
  l_idx: 0
  r_pos: true
  r_idx: 3
  r_shift: 3
3483:
- l_pos: true
  l_idx: 0
  r_pos: true
  r_idx: 0
  r_shift: 7
- l_pos: false
  l_idx: 1
  r_pos: true
  r_idx: 1
  r_shift: 3
- l_pos: false
  l_idx: 1
  r_pos: true
  r_idx: 2
  r_shift: 2
3485:
- l_pos: true
  l_idx: 0
  r_pos: true
  r_idx: 0
  r_shift: 3
- l_pos: false
  l_idx: 1
  r_pos: true
  r_idx: 0
  r_shift: 6
- l_pos: false
  l_idx: 1
  r_pos: true
  r_idx: 2
  r_shift: 4
- l_pos: true
  l_idx: 0
  r_pos: true
  r_idx: 3
  r_shift: 2
3487:
- l_pos: false
  l_idx: 0
  r_pos: true
  r_idx: 0
  r_shift: 5
- l_pos: true
  l_idx: 1
  r_pos: false
  r_idx: 0
  r_shift: 2
- l_pos: true
  l_idx: 1
  r_pos: true
  r_idx: 2
  r_shift: 7
3489:
- l_pos: false
  l_idx: 0
  r_pos: true
  r_idx: 0
  r_shift: 3
- l_pos: false
  l_idx: 0
  r_pos: true
  r_idx: 1
  r_shift: 2
- l_pos: true
  l_idx: 0
  r_pos: true
  r_idx: 2
  r_shift: 2
- l_pos: true
  l_idx: 0
  r_pos: true
  r_idx: 3
  r_shift: 5
3491:
- l_pos: true
  l_idx: 0
  r_pos: true
  r_idx: 0
  r_shift: 3
- l_pos: true
  l_idx: 1
  r_pos: true
  r_idx: 1
  r_shift: 1
- l_pos: true
  l_idx: 1
  r_pos: true
  r_idx: 2
  r_shift: 5
- l_pos: false
  l_idx: 0
  r_pos: true
  r_idx: 3
  r_shift: 2
3493:
- l_pos: true
  l_idx: 0
  r_pos: true
  r_idx: 0
  r_shift: 3
- l_pos: true
  l_idx: 1
  r_pos: true
  r_idx: 1
  r_shift: 1
- l_pos: true
  l_idx: 1
  r_pos: true
  r_idx: 2
  r_shift: 5
- l_pos: true
  l_idx: 0
  r_pos: true
  r_idx: 3
  r_shift: 2
3495:
- l_pos: true
  l_idx: 0
  r_pos: true
  r_idx: 0
  r_shift: 2
- l_pos: false
  l_idx: 1
  r_pos: true
  r_idx: 0
  r_shift: 5
- l_pos: true
  l_idx: 1
  r_pos: true
  r_idx: 2
  r_shift: 4
- l_pos: false
  l_idx: 0
  r_pos: true
  r_idx: 3
  r_shift: 3
3497:
- l_pos: true
  l_idx: 0
  r_pos: true
  r_idx: 0
  r_shift: 2
- l_pos: false
  l_idx: 1
  r_pos: true
  r_idx: 0
  r_shift: 5
- l_pos: true
  l_idx: 1
  r_pos: true
  r_idx: 2
  r_shift: 4
- l_pos: true
  l_idx: 0
  r_pos: true
  r_idx: 3
  r_shift: 3
3499:
- l_pos: false
  l_idx: 0
  r_pos: true
  r_idx: 0
  r_shift: 3
- l_pos: false
  l_idx: 1
  r_pos: true
  r_idx: 1
  r_shift: 5
- l_pos: true
  l_idx: 1
  r_pos: true
  r_idx: 2
  r_shift: 2
- l_pos: false
  l_idx: 0
  r_pos: true
  r_idx: 3
  r_shift: 2
3501:
- l_pos: true
  l_idx: 0
  r_pos: true
  r_idx: 0
  r_shift: 3
- l_pos: false
  l_idx: 1
  r_pos: true
  r_idx: 0
  r_shift: 6
- l_pos: false
  l_idx: 1
  r_pos: true
  r_idx: 2
  r_shift: 5
- l_pos: false
  l_idx: 0
  r_pos: true
  r_idx: 3
  r_shift: 1
3503:
- l_pos: false
  l_idx: 0
  r_pos: true
  r_idx: 0
  r_shift: 5
- l_pos: false
  l_idx: 1
  r_pos: true
  r_idx: 1
  r_shift: 3
- l_pos: true
  l_idx: 1
  r_pos: true
  r_idx: 2
  r_shift: 4
3505:
- l_pos: false
  l_idx: 0
  r_pos: true
  r_idx: 0
  r_shift: 3
- l_pos: false
  l_idx: 0
  r_pos: true
  r_idx: 1
  r_shift: 3
- l_pos: false
  l_idx: 0
  r_pos: true
  r_idx: 2
  r_shift: 2
- l_pos: true
  l_idx: 0
  r_pos: true
  r_idx: 3
  r_shift: 4
3507:
- l_pos: false
  l_idx: 0
  r_pos: true
  r_idx: 0
  r_shift: 3
- l_pos: false
  l_idx: 0
  r_pos: true
  r_idx: 1
  r_shift: 3
- l_pos: false
  l_idx: 1
  r_pos: true
  r_idx: 2
  r_shift: 5
- l_pos: true
  l_idx: 0
  r_pos: true
  r_idx: 3
  r_shift: 1
3509:
- l_pos: true
  l_idx: 0
  r_pos: true
  r_idx: 0
  r_shift: 6
- l_pos: false
  l_idx: 1
  r_pos: true
  r_idx: 1
  r_shift: 3
- l_pos: false
  l_idx: 1
  r_pos: true
  r_idx: 2
  r_shift: 2
- l_pos: false
  l_idx: 0
  r_pos: true
  r_idx: 3
  r_shift: 1
3511:
- l_pos: true
  l_idx: 0
  r_pos: true
  r_idx: 0
  r_shift: 3
- l_pos: false
  l_idx: 1
  r_pos: true
  r_idx: 0
  r_shift: 6
- l_pos: false
  l_idx: 1
  r_pos: true
  r_idx: 2
  r_shift: 6
3513:
- l_pos: false
  l_idx: 0
  r_pos: true
  r_idx: 0
  r_shift: 3
- l_pos: false
  l_idx: 0
  r_pos: true
  r_idx: 1
  r_shift: 3
- l_pos: false
  l_idx: 1
  r_pos: true
  r_idx: 2
  r_shift: 6
3515:
- l_pos: false
  l_idx: 0
  r_pos: true
  r_idx: 0
  r_shift: 3
- l_pos: false
  l_idx: 0
  r_pos: true
  r_idx: 1
  r_shift: 3
- l_pos: false
  l_idx: 0
  r_pos: true
  r_idx: 2
  r_shift: 4
- l_pos: false
  l_idx: 0
  r_pos: true
  r_idx: 3
  r_shift: 2
3517:
- l_pos: false
  l_idx: 0
  r_pos: true
  r_idx: 0
  r_shift: 3
- l_pos: false
  l_idx: 0
  r_pos: true
  r_idx: 1
  r_shift: 3
- l_pos: false
  l_idx: 0
  r_pos: true
  r_idx: 2
  r_shift: 4
- l_pos: true
  l_idx: 0
  r_pos: true
  r_idx: 3
  r_shift: 2
3519:
- l_pos: false
  l_idx: 0
  r_pos: true
  r_idx: 0
  r_shift: 3
- l_pos: false
  l_idx: 0
  r_pos: true
  r_idx: 1
  r_shift: 3
- l_pos: false
  l_idx: 0
  r_pos: true
  r_idx: 2
  r_shift: 6
".
Definition text_56 : string := "3521:
- l_pos: false
  l_idx: 0
  r_pos: true
  r_idx: 0
  r_shift: 3
- l_pos: false
  l_idx: 0
  r_pos: true
  r_idx: 1
  r_shift: 3
- l_pos: true
  l_idx: 0
  r_pos: true
  r_idx: 2
  r_shift: 6
3523:
- l_pos: false
  l_idx: 0
  r_pos: true
  r_idx: 0
  r_shift: 3
- l_pos: false
  l_idx: 0
  r_pos: true
  r_idx: 1
  r_shift: 3
- l_pos: true
  l_idx: 0
  r_pos: true
  r_idx: 2
  r_shift: 4
- l_pos: false
  l_idx: 0
  r_pos: true
  r_idx: 3
  r_shift: 2
3525:
- l_pos: false
  l_idx: 0
  r_pos: true
  r_idx: 0
  r_shift: 3
- l_pos: false
  l_idx: 0
  r_pos: true
  r_idx: 1
  r_shift: 3
- l_pos: true
  l_idx: 0
  r_pos: true
  r_idx: 2
  r_shift: 4
- l_pos: true
  l_idx: 0
  r_pos: true
  r_idx: 3
  r_shift: 2
3527:
- l_pos: false
  l_idx: 0
  r_pos: true
  r_idx: 0
  r_shift: 3
- l_pos: false
  l_idx: 1
  r_pos: true
  r_idx: 1
  r_shift: 6
- l_pos: false
  l_idx: 0
  r_pos: true
  r_idx: 2
  r_shift: 3
3529:
- l_pos: false
  l_idx: 0
  r_pos: true
  r_idx: 0
  r_shift: 3
- l_pos: false
  l_idx: 1
  r_pos: true
  r_idx: 1
  r_shift: 6
- l_pos: true
  l_idx: 0
  r_pos: true
  r_idx: 2
  r_shift: 3
3531:
- l_pos: false
  l_idx: 0
  r_pos: true
  r_idx: 0
  r_shift: 3
- l_pos: false
  l_idx: 1
  r_pos: true
  r_idx: 1
  r_shift: 6
- l_pos: true
  l_idx: 0
  r_pos: true
  r_idx: 2
  r_shift: 1
- l_pos: false
  l_idx: 0
  r_pos: true
  r_idx: 3
  r_shift: 2
3533:
- l_pos: false
  l_idx: 0
  r_pos: true
  r_idx: 0
  r_shift: 3
- l_pos: false
  l_idx: 1
  r_pos: true
  r_idx: 1
  r_shift: 6
- l_pos: true
  l_idx: 0
  r_pos: true
  r_idx: 2
  r_shift: 1
- l_pos: true
  l_idx: 0
  r_pos: true
  r_idx: 3
  r_shift: 2
3535:
- l_pos: false
  l_idx: 0
  r_pos: true
  r_idx: 0
  r_shift: 3
- l_pos: false
  l_idx: 1
  r_pos: true
  r_idx: 1
  r_shift: 6
- l_pos: true
  l_idx: 1
  r_pos: true
  r_idx: 2
  r_shift: 3
3537:
- l_pos: false
  l_idx: 0
  r_pos: true
  r_idx: 0
  r_shift: 3
- l_pos: false
  l_idx: 0
  r_pos: true
  r_idx: 1
  r_shift: 3
- l_pos: true
  l_idx: 0
  r_pos: true
  r_idx: 2
  r_shift: 2
- l_pos: true
  l_idx: 0
  r_pos: true
  r_idx: 3
  r_shift: 4
3539:
- l_pos: true
  l_idx: 0
  r_pos: true
  r_idx: 0
  r_shift: 3
- l_pos: false
  l_idx: 1
  r_pos: true
  r_idx: 0
  r_shift: 6
- l_pos: true
  l_idx: 1
  r_pos: true
  r_idx: 2
  r_shift: 5
- l_pos: true
  l_idx: 0
  r_pos: true
  r_idx: 3
  r_shift: 1
3541:
- l_pos: false
  l_idx: 0
  r_pos: true
  r_idx: 0
  r_shift: 3
- l_pos: false
  l_idx: 0
  r_pos: true
  r_idx: 1
  r_shift: 5
- l_pos: false
  l_idx: 1
  r_pos: true
  r_idx: 2
  r_shift: 2
- l_pos: true
  l_idx: 0
  r_pos: true
  r_idx: 3
  r_shift: 2
3543:
- l_pos: false
  l_idx: 0
  r_pos: true
  r_idx: 0
  r_shift: 3
- l_pos: false
  l_idx: 0
  r_pos: true
  r_idx: 1
  r_shift: 4
- l_pos: false
  l_idx: 0
  r_pos: true
  r_idx: 2
  r_shift: 2
- l_pos: false
  l_idx: 0
  r_pos: true
  r_idx: 3
  r_shift: 3
3545:
- l_pos: false
  l_idx: 0
  r_pos: true
  r_idx: 0
  r_shift: 3
- l_pos: false
  l_idx: 0
  r_pos: true
  r_idx: 1
  r_shift: 4
- l_pos: false
  l_idx: 1
  r_pos: true
  r_idx: 2
  r_shift: 5
3547:
- l_pos: false
  l_idx: 0
  r_pos: true
  r_idx: 0
  r_shift: 3
- l_pos: false
  l_idx: 0
  r_pos: true
  r_idx: 1
  r_shift: 4
- l_pos: false
  l_idx: 0
  r_pos: true
  r_idx: 2
  r_shift: 3
- l_pos: false
  l_idx: 0
  r_pos: true
  r_idx: 3
  r_shift: 2
3549:
- l_pos: false
  l_idx: 0
  r_pos: true
  r_idx: 0
  r_shift: 3
- l_pos: false
  l_idx: 1
  r_pos: true
  r_idx: 1
  r_shift: 7
- l_pos: false
  l_idx: 1
  r_pos: true
  r_idx: 2
  r_shift: 2
3551:
- l_pos: false
  l_idx: 0
  r_pos: true
  r_idx: 0
  r_shift: 3
- l_pos: false
  l_idx: 0
  r_pos: true
  r_idx: 1
  r_shift: 4
- l_pos: false
  l_idx: 0
  r_pos: true
  r_idx: 2
  r_shift: 5
3553:
- l_pos: false
  l_idx: 0
  r_pos: true
  r_idx: 0
  r_shift: 3
- l_pos: false
  l_idx: 0
  r_pos: true
  r_idx: 1
  r_shift: 4
- l_pos: true
  l_idx: 0
  r_pos: true
  r_idx: 2
  r_shift: 5
3555:
- l_pos: false
  l_idx: 0
  r_pos: true
  r_idx: 0
  r_shift: 3
- l_pos: false
  l_idx: 1
  r_pos: true
  r_idx: 1
  r_shift: 7
- l_pos: false
  l_idx: 0
  r_pos: true
  r_idx: 2
  r_shift: 2
3557:
- l_pos: false
  l_idx: 0
  r_pos: true
  r_idx: 0
  r_shift: 3
- l_pos: false
  l_idx: 1
  r_pos: true
  r_idx: 1
  r_shift: 7
- l_pos: true
  l_idx: 0
  r_pos: true
  r_idx: 2
  r_shift: 2
3559:
- l_pos: false
  l_idx: 0
  r_pos: true
  r_idx: 0
  r_shift: 3
- l_pos: false
  l_idx: 0
  r_pos: true
  r_idx: 1
  r_shift: 4
- l_pos: true
  l_idx: 1
  r_pos: true
  r_idx: 2
  r_shift: 5
3561:
- l_pos: false
  l_idx: 0
  r_pos: true
  r_idx: 0
  r_shift: 3
- l_pos: false
  l_idx: 0
  r_pos: true
  r_idx: 1
  r_shift: 5
- l_pos: false
  l_idx: 1
  r_pos: true
  r_idx: 2
  r_shift: 4
3563:
- l_pos: false
  l_idx: 0
  r_pos: true
  r_idx: 0
  r_shift: 3
- l_pos: false
  l_idx: 1
  r_pos: true
  r_idx: 1
  r_shift: 7
- l_pos: true
  l_idx: 1
  r_pos: true
  r_idx: 2
  r_shift: 2
3565:
- l_pos: false
  l_idx: 0
  r_pos: true
  r_idx: 0
  r_shift: 3
- l_pos: false
  l_idx: 0
  r_pos: true
  r_idx: 1
  r_shift: 5
- l_pos: false
  l_idx: 0
  r_pos: true
  r_idx: 2
  r_shift: 2
- l_pos: true
  l_idx: 0
  r_pos: true
  r_idx: 3
  r_shift: 2
3567:
- l_pos: false
  l_idx: 0
  r_pos: true
  r_idx: 0
  r_shift: 3
- l_pos: false
  l_idx: 0
  r_pos: true
  r_idx: 1
  r_shift: 5
- l_pos: false
  l_idx: 0
  r_pos: true
  r_idx: 2
  r_shift: 4
3569:
- l_pos: false
  l_idx: 0
  r_pos: true
  r_idx: 0
  r_shift: 3
- l_pos: false
  l_idx: 0
  r_pos: true
  r_idx: 1
  r_shift: 5
- l_pos: true
  l_idx: 0
  r_pos: true
  r_idx: 2
  r_shift: 4
3571:
- l_pos: false
  l_idx: 0
  r_pos: true
  r_idx: 0
  r_shift: 3
- l_pos: false
  l_idx: 1
  r_pos: true
  r_idx: 1
  r_shift: 8
- l_pos: true
  l_idx: 0
  r_pos: true
  r_idx: 2
  r_shift: 1
3573:
- l_pos: false
  l_idx: 0
  r_pos: true
  r_idx: 0
  r_shift: 3
- l_pos: false
  l_idx: 0
  r_pos: true
  r_idx: 1
  r_shift: 7
- l_pos: false
  l_idx: 1
  r_pos: true
  r_idx: 2
  r_shift: 2
3575:
- l_pos: false
  l_idx: 0
  r_pos: true
  r_idx: 0
  r_shift: 3
- l_pos: false
  l_idx: 0
  r_pos: true
  r_idx: 1
  r_shift: 6
- l_pos: false
  l_idx: 0
  r_pos: true
  r_idx: 2
  r_shift: 3
3577:
- l_pos: false
  l_idx: 0
  r_pos: true
  r_idx: 0
  r_shift: 3
- l_pos: false
  l_idx: 1
  r_pos: true
  r_idx: 1
  r_shift: 9
3579:
- l_pos: false
  l_idx: 0
  r_pos: true
  r_idx: 0
  r_shift: 3
- l_pos: false
  l_idx: 0
  r_pos: true
  r_idx: 1
  r_shift: 7
- l_pos: false
  l_idx: 0
  r_pos: true
  r_idx: 2
  r_shift: 2
3581:
- l_pos: false
  l_idx: 0
  r_pos: true
  r_idx: 0
  r_shift: 3
- l_pos: false
  l_idx: 0
  r_pos: true
  r_idx: 1
  r_shift: 7
- l_pos: true
  l_idx: 0
  r_pos: true
  r_idx: 2
  r_shift: 2
3583:
- l_pos: false
  l_idx: 0
  r_pos: true
  r_idx: 0
  r_shift: 3
- l_pos: false
  l_idx: 0
  r_pos: true
  r_idx: 1
  r_shift: 9
".
Definition text_57 : string := "3585:
- l_pos: false
  l_idx: 0
  r_pos: true
  r_idx: 0
  r_shift: 3
- l_pos: true
  l_idx: 0
  r_pos: true
  r_idx: 1
  r_shift: 9
3587:
- l_pos: false
  l_idx: 0
  r_pos: true
  r_idx: 0
  r_shift: 3
- l_pos: true
  l_idx: 0
  r_pos: true
  r_idx: 1
  r_shift: 7
- l_pos: false
  l_idx: 0
  r_pos: true
  r_idx: 2
  r_shift: 2
3589:
- l_pos: false
  l_idx: 0
  r_pos: true
  r_idx: 0
  r_shift: 3
- l_pos: true
  l_idx: 0
  r_pos: true
  r_idx: 1
  r_shift: 7
- l_pos: true
  l_idx: 0
  r_pos: true
  r_idx: 2
  r_shift: 2
3591:
- l_pos: false
  l_idx: 0
  r_pos: true
  r_idx: 0
  r_shift: 3
- l_pos: true
  l_idx: 1
  r_pos: true
  r_idx: 1
  r_shift: 9
3593:
- l_pos: false
  l_idx: 0
  r_pos: true
  r_idx: 0
  r_shift: 3
- l_pos: true
  l_idx: 0
  r_pos: true
  r_idx: 1
  r_shift: 6
- l_pos: true
  l_idx: 0
  r_pos: true
  r_idx: 2
  r_shift: 3
3595:
- l_pos: false
  l_idx: 0
  r_pos: true
  r_idx: 0
  r_shift: 3
- l_pos: true
  l_idx: 0
  r_pos: true
  r_idx: 1
  r_shift: 7
- l_pos: true
  l_idx: 1
  r_pos: true
  r_idx: 2
  r_shift: 2
3597:
- l_pos: false
  l_idx: 0
  r_pos: true
  r_idx: 0
  r_shift: 3
- l_pos: true
  l_idx: 1
  r_pos: true
  r_idx: 1
  r_shift: 8
- l_pos: false
  l_idx: 0
  r_pos: true
  r_idx: 2
  r_shift: 1
3599:
- l_pos: false
  l_idx: 0
  r_pos: true
  r_idx: 0
  r_shift: 3
- l_pos: true
  l_idx: 0
  r_pos: true
  r_idx: 1
  r_shift: 5
- l_pos: false
  l_idx: 0
  r_pos: true
  r_idx: 2
  r_shift: 4
3601:
- l_pos: false
  l_idx: 0
  r_pos: true
  r_idx: 0
  r_shift: 3
- l_pos: true
  l_idx: 0
  r_pos: true
  r_idx: 1
  r_shift: 5
- l_pos: true
  l_idx: 0
  r_pos: true
  r_idx: 2
  r_shift: 4
3603:
- l_pos: false
  l_idx: 0
  r_pos: true
  r_idx: 0
  r_shift: 3
- l_pos: true
  l_idx: 0
  r_pos: true
  r_idx: 1
  r_shift: 5
- l_pos: true
  l_idx: 0
  r_pos: true
  r_idx: 2
  r_shift: 2
- l_pos: false
  l_idx: 0
  r_pos: true
  r_idx: 3
  r_shift: 2
3605:
- l_pos: false
  l_idx: 0
  r_pos: true
  r_idx: 0
  r_shift: 3
- l_pos: true
  l_idx: 1
  r_pos: true
  r_idx: 1
  r_shift: 7
- l_pos: false
  l_idx: 1
  r_pos: true
  r_idx: 2
  r_shift: 2
3607:
- l_pos: false
  l_idx: 0
  r_pos: true
  r_idx: 0
  r_shift: 3
- l_pos: true
  l_idx: 0
  r_pos: true
  r_idx: 1
  r_shift: 5
- l_pos: true
  l_idx: 1
  r_pos: true
  r_idx: 2
  r_shift: 4
3609:
- l_pos: false
  l_idx: 0
  r_pos: true
  r_idx: 0
  r_shift: 3
- l_pos: true
  l_idx: 0
  r_pos: true
  r_idx: 1
  r_shift: 4
- l_pos: false
  l_idx: 1
  r_pos: true
  r_idx: 2
  r_shift: 5
3611:
- l_pos: false
  l_idx: 0
  r_pos: true
  r_idx: 0
  r_shift: 3
- l_pos: true
  l_idx: 1
  r_pos: true
  r_idx: 1
  r_shift: 7
- l_pos: false
  l_idx: 0
  r_pos: true
  r_idx: 2
  r_shift: 2
3613:
- l_pos: false
  l_idx: 0
  r_pos: true
  r_idx: 0
  r_shift: 3
- l_pos: true
  l_idx: 1
  r_pos: true
  r_idx: 1
  r_shift: 7
- l_pos: true
  l_idx: 0
  r_pos: true
  r_idx: 2
  r_shift: 2
3615:
- l_pos: false
  l_idx: 0
  r_pos: true
  r_idx: 0
  r_shift: 3
- l_pos: true
  l_idx: 0
  r_pos: true
  r_idx: 1
  r_shift: 4
- l_pos: false
  l_idx: 0
  r_pos: true
  r_idx: 2
  r_shift: 5
3617:
- l_pos: false
  l_idx: 0
  r_pos: true
  r_idx: 0
  r_shift: 3
- l_pos: true
  l_idx: 0
  r_pos: true
  r_idx: 1
  r_shift: 4
- l_pos: true
  l_idx: 0
  r_pos: true
  r_idx: 2
  r_shift: 5
3619:
- l_pos: false
  l_idx: 0
  r_pos: true
  r_idx: 0
  r_shift: 3
- l_pos: true
  l_idx: 1
  r_pos: true
  r_idx: 1
  r_shift: 7
- l_pos: true
  l_idx: 1
  r_pos: true
  r_idx: 2
  r_shift: 2
3621:
- l_pos: false
  l_idx: 0
  r_pos: true
  r_idx: 0
  r_shift: 3
- l_pos: true
  l_idx: 0
  r_pos: true
  r_idx: 1
  r_shift: 4
- l_pos: true
  l_idx: 0
  r_pos: true
  r_idx: 2
  r_shift: 3
- l_pos: true
  l_idx: 0
  r_pos: true
  r_idx: 3
  r_shift: 2
3623:
- l_pos: false
  l_idx: 0
  r_pos: true
  r_idx: 0
  r_shift: 3
- l_pos: true
  l_idx: 0
  r_pos: true
  r_idx: 1
  r_shift: 4
- l_pos: true
  l_idx: 1
  r_pos: true
  r_idx: 2
  r_shift: 5
3625:
- l_pos: false
  l_idx: 0
  r_pos: true
  r_idx: 0
  r_shift: 3
- l_pos: true
  l_idx: 0
  r_pos: true
  r_idx: 1
  r_shift: 4
- l_pos: true
  l_idx: 0
  r_pos: true
  r_idx: 2
  r_shift: 2
- l_pos: true
  l_idx: 0
  r_pos: true
  r_idx: 3
  r_shift: 3
3627:
- l_pos: false
  l_idx: 0
  r_pos: true
  r_idx: 0
  r_shift: 3
- l_pos: true
  l_idx: 0
  r_pos: true
  r_idx: 1
  r_shift: 5
- l_pos: true
  l_idx: 1
  r_pos: true
  r_idx: 2
  r_shift: 2
- l_pos: false
  l_idx: 0
  r_pos: true
  r_idx: 3
  r_shift: 2
3629:
- l_pos: false
  l_idx: 0
  r_pos: true
  r_idx: 0
  r_shift: 3
- l_pos: true
  l_idx: 0
  r_pos: true
  r_idx: 1
  r_shift: 4
- l_pos: true
  l_idx: 1
  r_pos: true
  r_idx: 2
  r_shift: 4
- l_pos: false
  l_idx: 0
  r_pos: true
  r_idx: 3
  r_shift: 1
3631:
- l_pos: false
  l_idx: 0
  r_pos: true
  r_idx: 0
  r_shift: 4
- l_pos: false
  l_idx: 1
  r_pos: true
  r_idx: 0
  r_shift: 7
- l_pos: true
  l_idx: 1
  r_pos: true
  r_idx: 2
  r_shift: 5
3633:
- l_pos: false
  l_idx: 0
  r_pos: true
  r_idx: 0
  r_shift: 3
- l_pos: true
  l_idx: 1
  r_pos: true
  r_idx: 1
  r_shift: 6
- l_pos: false
  l_idx: 1
  r_pos: true
  r_idx: 2
  r_shift: 3
3635:
- l_pos: false
  l_idx: 0
  r_pos: true
  r_idx: 0
  r_shift: 3
- l_pos: true
  l_idx: 1
  r_pos: true
  r_idx: 1
  r_shift: 6
- l_pos: false
  l_idx: 0
  r_pos: true
  r_idx: 2
  r_shift: 1
- l_pos: false
  l_idx: 0
  r_pos: true
  r_idx: 3
  r_shift: 2
3637:
- l_pos: false
  l_idx: 0
  r_pos: true
  r_idx: 0
  r_shift: 3
- l_pos: true
  l_idx: 1
  r_pos: true
  r_idx: 1
  r_shift: 6
- l_pos: false
  l_idx: 0
  r_pos: true
  r_idx: 2
  r_shift: 1
- l_pos: true
  l_idx: 0
  r_pos: true
  r_idx: 3
  r_shift: 2
3639:
- l_pos: false
  l_idx: 0
  r_pos: true
  r_idx: 0
  r_shift: 3
- l_pos: true
  l_idx: 1
  r_pos: true
  r_idx: 1
  r_shift: 6
- l_pos: false
  l_idx: 0
  r_pos: true
  r_idx: 2
  r_shift: 3
3641:
- l_pos: false
  l_idx: 0
  r_pos: true
  r_idx: 0
  r_shift: 3
- l_pos: true
  l_idx: 1
  r_pos: true
  r_idx: 1
  r_shift: 6
- l_pos: true
  l_idx: 0
  r_pos: true
  r_idx: 2
  r_shift: 3
3643:
- l_pos: false
  l_idx: 0
  r_pos: true
  r_idx: 0
  r_shift: 3
- l_pos: true
  l_idx: 0
  r_pos: true
  r_idx: 1
  r_shift: 3
- l_pos: false
  l_idx: 0
  r_pos: true
  r_idx: 2
  r_shift: 4
- l_pos: false
  l_idx: 0
  r_pos: true
  r_idx: 3
  r_shift: 2
3645:
- l_pos: false
  l_idx: 0
  r_pos: true
  r_idx: 0
  r_shift: 3
- l_pos: true
  l_idx: 0
  r_pos: true
  r_idx: 1
  r_shift: 3
- l_pos: false
  l_idx: 0
  r_pos: true
  r_idx: 2
  r_shift: 4
- l_pos: true
  l_idx: 0
  r_pos: true
  r_idx: 3
  r_shift: 2
3647:
- l_pos: false
  l_idx: 0
  r_pos: true
  r_idx: 0
  r_shift: 3
- l_pos: true
  l_idx: 0
  r_pos: true
  r_idx: 1
  r_shift: 3
- l_pos: false
  l_idx: 0
  r_pos: true
  r_idx: 2
  r_shift: 6
".
Definition text_58 : string := "3649:
- l_pos: false
  l_idx: 0
  r_pos: true
  r_idx: 0
  r_shift: 3
- l_pos: true
  l_idx: 0
  r_pos: true
  r_idx: 1
  r_shift: 3
- l_pos: true
  l_idx: 0
  r_pos: true
  r_idx: 2
  r_shift: 6
3651:
- l_pos: false
  l_idx: 0
  r_pos: true
  r_idx: 0
  r_shift: 3
- l_pos: true
  l_idx: 0
  r_pos: true
  r_idx: 1
  r_shift: 3
- l_pos: true
  l_idx: 0
  r_pos: true
  r_idx: 2
  r_shift: 4
- l_pos: false
  l_idx: 0
  r_pos: true
  r_idx: 3
  r_shift: 2
3653:
- l_pos: false
  l_idx: 0
  r_pos: true
  r_idx: 0
  r_shift: 3
- l_pos: true
  l_idx: 0
  r_pos: true
  r_idx: 1
  r_shift: 3
- l_pos: true
  l_idx: 0
  r_pos: true
  r_idx: 2
  r_shift: 4
- l_pos: true
  l_idx: 0
  r_pos: true
  r_idx: 3
  r_shift: 2
3655:
- l_pos: false
  l_idx: 0
  r_pos: true
  r_idx: 0
  r_shift: 3
- l_pos: true
  l_idx: 0
  r_pos: true
  r_idx: 1
  r_shift: 3
- l_pos: true
  l_idx: 1
  r_pos: true
  r_idx: 2
  r_shift: 6
3657:
- l_pos: false
  l_idx: 0
  r_pos: true
  r_idx: 0
  r_shift: 3
- l_pos: true
  l_idx: 0
  r_pos: true
  r_idx: 1
  r_shift: 3
- l_pos: true
  l_idx: 0
  r_pos: true
  r_idx: 2
  r_shift: 3
- l_pos: true
  l_idx: 0
  r_pos: true
  r_idx: 3
  r_shift: 3
3659:
- l_pos: false
  l_idx: 0
  r_pos: true
  r_idx: 0
  r_shift: 4
- l_pos: false
  l_idx: 1
  r_pos: true
  r_idx: 1
  r_shift: 4
- l_pos: true
  l_idx: 1
  r_pos: true
  r_idx: 2
  r_shift: 2
- l_pos: false
  l_idx: 0
  r_pos: true
  r_idx: 3
  r_shift: 2
3661:
- l_pos: false
  l_idx: 0
  r_pos: true
  r_idx: 0
  r_shift: 3
- l_pos: true
  l_idx: 0
  r_pos: true
  r_idx: 1
  r_shift: 3
- l_pos: true
  l_idx: 1
  r_pos: true
  r_idx: 2
  r_shift: 5
- l_pos: false
  l_idx: 0
  r_pos: true
  r_idx: 3
  r_shift: 1
3663:
- l_pos: true
  l_idx: 0
  r_pos: true
  r_idx: 0
  r_shift: 5
- l_pos: false
  l_idx: 1
  r_pos: true
  r_idx: 1
  r_shift: 3
- l_pos: false
  l_idx: 1
  r_pos: true
  r_idx: 2
  r_shift: 4
3665:
- l_pos: false
  l_idx: 0
  r_pos: true
  r_idx: 0
  r_shift: 3
- l_pos: true
  l_idx: 0
  r_pos: true
  r_idx: 1
  r_shift: 3
- l_pos: true
  l_idx: 0
  r_pos: true
  r_idx: 2
  r_shift: 2
- l_pos: true
  l_idx: 0
  r_pos: true
  r_idx: 3
  r_shift: 4
3667:
- l_pos: false
  l_idx: 0
  r_pos: true
  r_idx: 0
  r_shift: 3
- l_pos: true
  l_idx: 1
  r_pos: true
  r_idx: 1
  r_shift: 5
- l_pos: false
  l_idx: 1
  r_pos: true
  r_idx: 2
  r_shift: 2
- l_pos: false
  l_idx: 0
  r_pos: true
  r_idx: 3
  r_shift: 2
3669:
- l_pos: false
  l_idx: 0
  r_pos: true
  r_idx: 0
  r_shift: 3
- l_pos: true
  l_idx: 1
  r_pos: true
  r_idx: 1
  r_shift: 5
- l_pos: false
  l_idx: 1
  r_pos: true
  r_idx: 2
  r_shift: 2
- l_pos: true
  l_idx: 0
  r_pos: true
  r_idx: 3
  r_shift: 2
3671:
- l_pos: false
  l_idx: 0
  r_pos: true
  r_idx: 0
  r_shift: 3
- l_pos: true
  l_idx: 0
  r_pos: true
  r_idx: 1
  r_shift: 4
- l_pos: true
  l_idx: 1
  r_pos: true
  r_idx: 2
  r_shift: 2
- l_pos: false
  l_idx: 0
  r_pos: true
  r_idx: 3
  r_shift: 3
3673:
- l_pos: false
  l_idx: 0
  r_pos: true
  r_idx: 0
  r_shift: 3
- l_pos: true
  l_idx: 0
  r_pos: true
  r_idx: 1
  r_shift: 4
- l_pos: true
  l_idx: 1
  r_pos: true
  r_idx: 2
  r_shift: 2
- l_pos: true
  l_idx: 0
  r_pos: true
  r_idx: 3
  r_shift: 3
3675:
- l_pos: false
  l_idx: 0
  r_pos: true
  r_idx: 0
  r_shift: 3
- l_pos: true
  l_idx: 0
  r_pos: true
  r_idx: 1
  r_shift: 3
- l_pos: true
  l_idx: 1
  r_pos: true
  r_idx: 2
  r_shift: 4
- l_pos: false
  l_idx: 0
  r_pos: true
  r_idx: 3
  r_shift: 2
3677:
- l_pos: false
  l_idx: 0
  r_pos: true
  r_idx: 0
  r_shift: 3
- l_pos: true
  l_idx: 0
  r_pos: true
  r_idx: 1
  r_shift: 3
- l_pos: true
  l_idx: 1
  r_pos: true
  r_idx: 2
  r_shift: 4
- l_pos: true
  l_idx: 0
  r_pos: true
  r_idx: 3
  r_shift: 2
3679:
- l_pos: true
  l_idx: 0
  r_pos: true
  r_idx: 0
  r_shift: 5
- l_pos: true
  l_idx: 1
  r_pos: false
  r_idx: 0
  r_shift: 2
- l_pos: false
  l_idx: 1
  r_pos: true
  r_idx: 2
  r_shift: 7
3681:
- l_pos: false
  l_idx: 0
  r_pos: true
  r_idx: 0
  r_shift: 5
- l_pos: true
  l_idx: 1
  r_pos: false
  r_idx: 0
  r_shift: 1
- l_pos: false
  l_idx: 1
  r_pos: true
  r_idx: 2
  r_shift: 7
3683:
- l_pos: false
  l_idx: 0
  r_pos: true
  r_idx: 0
  r_shift: 7
- l_pos: false
  l_idx: 1
  r_pos: true
  r_idx: 1
  r_shift: 3
- l_pos: true
  l_idx: 1
  r_pos: true
  r_idx: 2
  r_shift: 2
3685:
- l_pos: false
  l_idx: 0
  r_pos: true
  r_idx: 0
  r_shift: 3
- l_pos: true
  l_idx: 0
  r_pos: true
  r_idx: 1
  r_shift: 2
- l_pos: false
  l_idx: 1
  r_pos: true
  r_idx: 2
  r_shift: 5
- l_pos: true
  l_idx: 0
  r_pos: true
  r_idx: 3
  r_shift: 2
3687:
- l_pos: false
  l_idx: 0
  r_pos: true
  r_idx: 0
  r_shift: 3
- l_pos: true
  l_idx: 1
  r_pos: true
  r_idx: 1
  r_shift: 5
- l_pos: false
  l_idx: 0
  r_pos: true
  r_idx: 2
  r_shift: 1
- l_pos: false
  l_idx: 0
  r_pos: true
  r_idx: 3
  r_shift: 3
3689:
- l_pos: false
  l_idx: 0
  r_pos: true
  r_idx: 0
  r_shift: 3
- l_pos: true
  l_idx: 1
  r_pos: true
  r_idx: 1
  r_shift: 5
- l_pos: false
  l_idx: 1
  r_pos: true
  r_idx: 2
  r_shift: 4
3691:
- l_pos: false
  l_idx: 0
  r_pos: true
  r_idx: 0
  r_shift: 3
- l_pos: true
  l_idx: 1
  r_pos: true
  r_idx: 1
  r_shift: 5
- l_pos: false
  l_idx: 0
  r_pos: true
  r_idx: 2
  r_shift: 2
- l_pos: false
  l_idx: 0
  r_pos: true
  r_idx: 3
  r_shift: 2
3693:
- l_pos: false
  l_idx: 0
  r_pos: true
  r_idx: 0
  r_shift: 3
- l_pos: true
  l_idx: 1
  r_pos: true
  r_idx: 1
  r_shift: 5
- l_pos: false
  l_idx: 0
  r_pos: true
  r_idx: 2
  r_shift: 2
- l_pos: true
  l_idx: 0
  r_pos: true
  r_idx: 3
  r_shift: 2
3695:
- l_pos: false
  l_idx: 0
  r_pos: true
  r_idx: 0
  r_shift: 3
- l_pos: true
  l_idx: 1
  r_pos: true
  r_idx: 1
  r_shift: 5
- l_pos: false
  l_idx: 0
  r_pos: true
  r_idx: 2
  r_shift: 4
3697:
- l_pos: false
  l_idx: 0
  r_pos: true
  r_idx: 0
  r_shift: 3
- l_pos: true
  l_idx: 1
  r_pos: true
  r_idx: 1
  r_shift: 5
- l_pos: true
  l_idx: 0
  r_pos: true
  r_idx: 2
  r_shift: 4
3699:
- l_pos: false
  l_idx: 0
  r_pos: true
  r_idx: 0
  r_shift: 3
- l_pos: true
  l_idx: 1
  r_pos: true
  r_idx: 1
  r_shift: 5
- l_pos: true
  l_idx: 0
  r_pos: true
  r_idx: 2
  r_shift: 2
- l_pos: false
  l_idx: 0
  r_pos: true
  r_idx: 3
  r_shift: 2
3701:
- l_pos: false
  l_idx: 0
  r_pos: true
  r_idx: 0
  r_shift: 3
- l_pos: true
  l_idx: 1
  r_pos: true
  r_idx: 1
  r_shift: 5
- l_pos: true
  l_idx: 0
  r_pos: true
  r_idx: 2
  r_shift: 2
- l_pos: true
  l_idx: 0
  r_pos: true
  r_idx: 3
  r_shift: 2
3703:
- l_pos: false
  l_idx: 0
  r_pos: true
  r_idx: 0
  r_shift: 3
- l_pos: true
  l_idx: 1
  r_pos: true
  r_idx: 1
  r_shift: 5
- l_pos: true
  l_idx: 1
  r_pos: true
  r_idx: 2
  r_shift: 4
3705:
- l_pos: false
  l_idx: 0
  r_pos: true
  r_idx: 0
  r_shift: 3
- l_pos: true
  l_idx: 0
  r_pos: true
  r_idx: 1
  r_shift: 2
- l_pos: false
  l_idx: 1
  r_pos: true
  r_idx: 2
  r_shift: 7
3707:
- l_pos: false
  l_idx: 0
  r_pos: true
  r_idx: 0
  r_shift: 3
- l_pos: true
  l_idx: 0
  r_pos: true
  r_idx: 1
  r_shift: 2
- l_pos: false
  l_idx: 0
  r_pos: true
  r_idx: 2
  r_shift: 5
- l_pos: false
  l_idx: 0
  r_pos: true
  r_idx: 3
  r_shift: 2
3709:
- l_pos: true
  l_idx: 0
  r_pos: true
  r_idx: 0
  r_shift: 1
- l_pos: false
  l_idx: 1
  r_pos: true
  r_idx: 0
  r_shift: 5
- l_pos: false
  l_idx: 1
  r_pos: true
  r_idx: 2
  r_shift: 7
3711:
- l_pos: false
  l_idx: 0
  r_pos: true
  r_idx: 0
  r_shift: 3
- l_pos: true
  l_idx: 0
  r_pos: true
  r_idx: 1
  r_shift: 2
- l_pos: false
  l_idx: 0
  r_pos: true
  r_idx: 2
  r_shift: 7
".
Definition text_59 : string := "3713:
- l_pos: false
  l_idx: 0
  r_pos: true
  r_idx: 0
  r_shift: 3
- l_pos: true
  l_idx: 0
  r_pos: true
  r_idx: 1
  r_shift: 2
- l_pos: true
  l_idx: 0
  r_pos: true
  r_idx: 2
  r_shift: 7
3715:
- l_pos: true
  l_idx: 0
  r_pos: true
  r_idx: 0
  r_shift: 1
- l_pos: false
  l_idx: 1
  r_pos: true
  r_idx: 0
  r_shift: 5
- l_pos: true
  l_idx: 1
  r_pos: true
  r_idx: 2
  r_shift: 7
3717:
- l_pos: false
  l_idx: 0
  r_pos: true
  r_idx: 0
  r_shift: 6
- l_pos: false
  l_idx: 1
  r_pos: true
  r_idx: 1
  r_shift: 4
- l_pos: false
  l_idx: 1
  r_pos: true
  r_idx: 2
  r_shift: 2
3719:
- l_pos: false
  l_idx: 0
  r_pos: true
  r_idx: 0
  r_shift: 4
- l_pos: false
  l_idx: 1
  r_pos: true
  r_idx: 1
  r_shift: 5
- l_pos: false
  l_idx: 0
  r_pos: true
  r_idx: 2
  r_shift: 3
3721:
- l_pos: false
  l_idx: 0
  r_pos: true
  r_idx: 0
  r_shift: 4
- l_pos: false
  l_idx: 1
  r_pos: true
  r_idx: 1
  r_shift: 5
- l_pos: true
  l_idx: 0
  r_pos: true
  r_idx: 2
  r_shift: 3
3723:
- l_pos: false
  l_idx: 0
  r_pos: true
  r_idx: 0
  r_shift: 4
- l_pos: false
  l_idx: 1
  r_pos: true
  r_idx: 1
  r_shift: 5
- l_pos: true
  l_idx: 0
  r_pos: true
  r_idx: 2
  r_shift: 1
- l_pos: false
  l_idx: 0
  r_pos: true
  r_idx: 3
  r_shift: 2
3725:
- l_pos: false
  l_idx: 0
  r_pos: true
  r_idx: 0
  r_shift: 4
- l_pos: false
  l_idx: 1
  r_pos: true
  r_idx: 1
  r_shift: 5
- l_pos: true
  l_idx: 0
  r_pos: true
  r_idx: 2
  r_shift: 1
- l_pos: true
  l_idx: 0
  r_pos: true
  r_idx: 3
  r_shift: 2
3727:
- l_pos: false
  l_idx: 0
  r_pos: true
  r_idx: 0
  r_shift: 4
- l_pos: false
  l_idx: 0
  r_pos: true
  r_idx: 1
  r_shift: 1
- l_pos: true
  l_idx: 1
  r_pos: true
  r_idx: 2
  r_shift: 7
3729:
- l_pos: true
  l_idx: 0
  r_pos: true
  r_idx: 0
  r_shift: 5
- l_pos: false
  l_idx: 1
  r_pos: true
  r_idx: 1
  r_shift: 3
- l_pos: true
  l_idx: 1
  r_pos: true
  r_idx: 2
  r_shift: 4
3731:
- l_pos: true
  l_idx: 0
  r_pos: true
  r_idx: 0
  r_shift: 1
- l_pos: false
  l_idx: 1
  r_pos: true
  r_idx: 0
  r_shift: 5
- l_pos: true
  l_idx: 0
  r_pos: true
  r_idx: 2
  r_shift: 3
- l_pos: true
  l_idx: 1
  r_pos: true
  r_idx: 3
  r_shift: 4
3733:
- l_pos: true
  l_idx: 0
  r_pos: true
  r_idx: 0
  r_shift: 1
- l_pos: false
  l_idx: 1
  r_pos: true
  r_idx: 0
  r_shift: 5
- l_pos: true
  l_idx: 1
  r_pos: true
  r_idx: 2
  r_shift: 4
- l_pos: false
  l_idx: 1
  r_pos: true
  r_idx: 3
  r_shift: 3
3735:
- l_pos: false
  l_idx: 0
  r_pos: true
  r_idx: 0
  r_shift: 4
- l_pos: false
  l_idx: 1
  r_pos: true
  r_idx: 1
  r_shift: 5
- l_pos: true
  l_idx: 1
  r_pos: true
  r_idx: 2
  r_shift: 3
3737:
- l_pos: true
  l_idx: 0
  r_pos: true
  r_idx: 0
  r_shift: 1
- l_pos: false
  l_idx: 1
  r_pos: true
  r_idx: 0
  r_shift: 5
- l_pos: true
  l_idx: 1
  r_pos: true
  r_idx: 2
  r_shift: 4
- l_pos: true
  l_idx: 0
  r_pos: true
  r_idx: 3
  r_shift: 3
3739:
- l_pos: false
  l_idx: 0
  r_pos: true
  r_idx: 0
  r_shift: 3
- l_pos: true
  l_idx: 0
  r_pos: true
  r_idx: 1
  r_shift: 2
- l_pos: true
  l_idx: 1
  r_pos: true
  r_idx: 2
  r_shift: 5
- l_pos: false
  l_idx: 0
  r_pos: true
  r_idx: 3
  r_shift: 2
3741:
- l_pos: true
  l_idx: 0
  r_pos: true
  r_idx: 0
  r_shift: 7
- l_pos: false
  l_idx: 1
  r_pos: true
  r_idx: 1
  r_shift: 3
- l_pos: true
  l_idx: 1
  r_pos: true
  r_idx: 2
  r_shift: 2
3743:
- l_pos: false
  l_idx: 0
  r_pos: true
  r_idx: 0
  r_shift: 5
- l_pos: true
  l_idx: 1
  r_pos: false
  r_idx: 0
  r_shift: 1
- l_pos: true
  l_idx: 1
  r_pos: true
  r_idx: 2
  r_shift: 7
3745:
- l_pos: true
  l_idx: 0
  r_pos: true
  r_idx: 0
  r_shift: 5
- l_pos: true
  l_idx: 1
  r_pos: false
  r_idx: 0
  r_shift: 2
- l_pos: true
  l_idx: 1
  r_pos: true
  r_idx: 2
  r_shift: 7
3747:
- l_pos: false
  l_idx: 0
  r_pos: true
  r_idx: 0
  r_shift: 4
- l_pos: false
  l_idx: 0
  r_pos: true
  r_idx: 1
  r_shift: 2
- l_pos: false
  l_idx: 1
  r_pos: true
  r_idx: 2
  r_shift: 5
- l_pos: true
  l_idx: 0
  r_pos: true
  r_idx: 3
  r_shift: 1
3749:
- l_pos: false
  l_idx: 0
  r_pos: true
  r_idx: 0
  r_shift: 4
- l_pos: false
  l_idx: 0
  r_pos: true
  r_idx: 1
  r_shift: 3
- l_pos: false
  l_idx: 1
  r_pos: true
  r_idx: 2
  r_shift: 3
- l_pos: true
  l_idx: 0
  r_pos: true
  r_idx: 3
  r_shift: 2
3751:
- l_pos: false
  l_idx: 0
  r_pos: true
  r_idx: 0
  r_shift: 5
- l_pos: false
  l_idx: 1
  r_pos: true
  r_idx: 1
  r_shift: 4
- l_pos: true
  l_idx: 1
  r_pos: true
  r_idx: 2
  r_shift: 3
3753:
- l_pos: false
  l_idx: 0
  r_pos: true
  r_idx: 0
  r_shift: 3
- l_pos: true
  l_idx: 1
  r_pos: true
  r_idx: 1
  r_shift: 4
- l_pos: false
  l_idx: 1
  r_pos: true
  r_idx: 2
  r_shift: 2
- l_pos: true
  l_idx: 0
  r_pos: true
  r_idx: 3
  r_shift: 3
3755:
- l_pos: true
  l_idx: 0
  r_pos: true
  r_idx: 0
  r_shift: 2
- l_pos: false
  l_idx: 1
  r_pos: true
  r_idx: 0
  r_shift: 6
- l_pos: false
  l_idx: 1
  r_pos: true
  r_idx: 2
  r_shift: 4
- l_pos: false
  l_idx: 0
  r_pos: true
  r_idx: 3
  r_shift: 2
3757:
- l_pos: true
  l_idx: 0
  r_pos: true
  r_idx: 0
  r_shift: 2
- l_pos: false
  l_idx: 1
  r_pos: true
  r_idx: 0
  r_shift: 6
- l_pos: false
  l_idx: 1
  r_pos: true
  r_idx: 2
  r_shift: 4
- l_pos: true
  l_idx: 0
  r_pos: true
  r_idx: 3
  r_shift: 2
3759:
- l_pos: false
  l_idx: 0
  r_pos: true
  r_idx: 0
  r_shift: 4
- l_pos: false
  l_idx: 0
  r_pos: true
  r_idx: 1
  r_shift: 2
- l_pos: false
  l_idx: 0
  r_pos: true
  r_idx: 2
  r_shift: 2
- l_pos: false
  l_idx: 0
  r_pos: true
  r_idx: 3
  r_shift: 4
3761:
- l_pos: false
  l_idx: 0
  r_pos: true
  r_idx: 0
  r_shift: 4
- l_pos: false
  l_idx: 0
  r_pos: true
  r_idx: 1
  r_shift: 2
- l_pos: false
  l_idx: 1
  r_pos: true
  r_idx: 2
  r_shift: 6
3763:
- l_pos: false
  l_idx: 0
  r_pos: true
  r_idx: 0
  r_shift: 4
- l_pos: false
  l_idx: 0
  r_pos: true
  r_idx: 1
  r_shift: 4
- l_pos: false
  l_idx: 1
  r_pos: true
  r_idx: 2
  r_shift: 2
- l_pos: false
  l_idx: 0
  r_pos: true
  r_idx: 3
  r_shift: 2
3765:
- l_pos: false
  l_idx: 0
  r_pos: true
  r_idx: 0
  r_shift: 4
- l_pos: false
  l_idx: 1
  r_pos: true
  r_idx: 1
  r_shift: 6
- l_pos: false
  l_idx: 1
  r_pos: true
  r_idx: 2
  r_shift: 2
3767:
- l_pos: false
  l_idx: 0
  r_pos: true
  r_idx: 0
  r_shift: 4
- l_pos: false
  l_idx: 0
  r_pos: true
  r_idx: 1
  r_shift: 2
- l_pos: false
  l_idx: 0
  r_pos: true
  r_idx: 2
  r_shift: 3
- l_pos: false
  l_idx: 0
  r_pos: true
  r_idx: 3
  r_shift: 3
3769:
- l_pos: false
  l_idx: 0
  r_pos: true
  r_idx: 0
  r_shift: 4
- l_pos: false
  l_idx: 0
  r_pos: true
  r_idx: 1
  r_shift: 2
- l_pos: false
  l_idx: 0
  r_pos: true
  r_idx: 2
  r_shift: 3
- l_pos: true
  l_idx: 0
  r_pos: true
  r_idx: 3
  r_shift: 3
3771:
- l_pos: true
  l_idx: 0
  r_pos: true
  r_idx: 0
  r_shift: 2
- l_pos: false
  l_idx: 1
  r_pos: true
  r_idx: 0
  r_shift: 6
- l_pos: false
  l_idx: 1
  r_pos: true
  r_idx: 2
  r_shift: 6
3773:
- l_pos: false
  l_idx: 0
  r_pos: true
  r_idx: 0
  r_shift: 4
- l_pos: false
  l_idx: 0
  r_pos: true
  r_idx: 1
  r_shift: 2
- l_pos: false
  l_idx: 0
  r_pos: true
  r_idx: 2
  r_shift: 4
- l_pos: true
  l_idx: 0
  r_pos: true
  r_idx: 3
  r_shift: 2
3775:
- l_pos: false
  l_idx: 0
  r_pos: true
  r_idx: 0
  r_shift: 4
- l_pos: false
  l_idx: 0
  r_pos: true
  r_idx: 1
  r_shift: 2
- l_pos: false
  l_idx: 0
  r_pos: true
  r_idx: 2
  r_shift: 6
".
Definition text_60 : string := "3777:
- l_pos: false
  l_idx: 0
  r_pos: true
  r_idx: 0
  r_shift: 4
- l_pos: false
  l_idx: 0
  r_pos: true
  r_idx: 1
  r_shift: 2
- l_pos: true
  l_idx: 0
  r_pos: true
  r_idx: 2
  r_shift: 6
3779:
- l_pos: false
  l_idx: 0
  r_pos: true
  r_idx: 0
  r_shift: 4
- l_pos: false
  l_idx: 1
  r_pos: true
  r_idx: 1
  r_shift: 6
- l_pos: false
  l_idx: 0
  r_pos: true
  r_idx: 2
  r_shift: 2
3781:
- l_pos: false
  l_idx: 0
  r_pos: true
  r_idx: 0
  r_shift: 4
- l_pos: false
  l_idx: 1
  r_pos: true
  r_idx: 1
  r_shift: 6
- l_pos: true
  l_idx: 0
  r_pos: true
  r_idx: 2
  r_shift: 2
3783:
- l_pos: false
  l_idx: 0
  r_pos: true
  r_idx: 0
  r_shift: 4
- l_pos: false
  l_idx: 0
  r_pos: true
  r_idx: 1
  r_shift: 2
- l_pos: true
  l_idx: 0
  r_pos: true
  r_idx: 2
  r_shift: 3
- l_pos: false
  l_idx: 0
  r_pos: true
  r_idx: 3
  r_shift: 3
3785:
- l_pos: false
  l_idx: 0
  r_pos: true
  r_idx: 0
  r_shift: 4
- l_pos: false
  l_idx: 0
  r_pos: true
  r_idx: 1
  r_shift: 2
- l_pos: true
  l_idx: 0
  r_pos: true
  r_idx: 2
  r_shift: 3
- l_pos: true
  l_idx: 0
  r_pos: true
  r_idx: 3
  r_shift: 3
3787:
- l_pos: true
  l_idx: 0
  r_pos: true
  r_idx: 0
  r_shift: 2
- l_pos: false
  l_idx: 1
  r_pos: true
  r_idx: 0
  r_shift: 6
- l_pos: true
  l_idx: 1
  r_pos: true
  r_idx: 2
  r_shift: 5
- l_pos: true
  l_idx: 0
  r_pos: true
  r_idx: 3
  r_shift: 1
3789:
- l_pos: true
  l_idx: 0
  r_pos: true
  r_idx: 0
  r_shift: 3
- l_pos: false
  l_idx: 1
  r_pos: true
  r_idx: 0
  r_shift: 7
- l_pos: false
  l_idx: 1
  r_pos: true
  r_idx: 2
  r_shift: 4
- l_pos: false
  l_idx: 0
  r_pos: true
  r_idx: 3
  r_shift: 1
3791:
- l_pos: true
  l_idx: 0
  r_pos: true
  r_idx: 0
  r_shift: 4
- l_pos: false
  l_idx: 1
  r_pos: true
  r_idx: 1
  r_shift: 3
- l_pos: false
  l_idx: 1
  r_pos: true
  r_idx: 2
  r_shift: 5
3793:
- l_pos: false
  l_idx: 0
  r_pos: true
  r_idx: 0
  r_shift: 4
- l_pos: false
  l_idx: 0
  r_pos: true
  r_idx: 1
  r_shift: 3
- l_pos: false
  l_idx: 1
  r_pos: true
  r_idx: 2
  r_shift: 5
3795:
- l_pos: false
  l_idx: 0
  r_pos: true
  r_idx: 0
  r_shift: 4
- l_pos: false
  l_idx: 1
  r_pos: true
  r_idx: 1
  r_shift: 6
- l_pos: true
  l_idx: 1
  r_pos: true
  r_idx: 2
  r_shift: 2
3797:
- l_pos: true
  l_idx: 0
  r_pos: true
  r_idx: 0
  r_shift: 2
- l_pos: false
  l_idx: 1
  r_pos: true
  r_idx: 0
  r_shift: 6
- l_pos: true
  l_idx: 1
  r_pos: true
  r_idx: 2
  r_shift: 4
- l_pos: true
  l_idx: 0
  r_pos: true
  r_idx: 3
  r_shift: 2
3799:
- l_pos: true
  l_idx: 0
  r_pos: true
  r_idx: 0
  r_shift: 3
- l_pos: false
  l_idx: 1
  r_pos: true
  r_idx: 0
  r_shift: 7
- l_pos: false
  l_idx: 1
  r_pos: true
  r_idx: 2
  r_shift: 5
3801:
- l_pos: false
  l_idx: 0
  r_pos: true
  r_idx: 0
  r_shift: 3
- l_pos: true
  l_idx: 1
  r_pos: true
  r_idx: 1
  r_shift: 4
- l_pos: false
  l_idx: 1
  r_pos: true
  r_idx: 2
  r_shift: 5
3803:
- l_pos: false
  l_idx: 0
  r_pos: true
  r_idx: 0
  r_shift: 4
- l_pos: false
  l_idx: 0
  r_pos: true
  r_idx: 1
  r_shift: 3
- l_pos: false
  l_idx: 0
  r_pos: true
  r_idx: 2
  r_shift: 3
- l_pos: false
  l_idx: 0
  r_pos: true
  r_idx: 3
  r_shift: 2
3805:
- l_pos: false
  l_idx: 0
  r_pos: true
  r_idx: 0
  r_shift: 4
- l_pos: false
  l_idx: 0
  r_pos: true
  r_idx: 1
  r_shift: 3
- l_pos: false
  l_idx: 0
  r_pos: true
  r_idx: 2
  r_shift: 3
- l_pos: true
  l_idx: 0
  r_pos: true
  r_idx: 3
  r_shift: 2
3807:
- l_pos: false
  l_idx: 0
  r_pos: true
  r_idx: 0
  r_shift: 4
- l_pos: false
  l_idx: 0
  r_pos: true
  r_idx: 1
  r_shift: 3
- l_pos: false
  l_idx: 0
  r_pos: true
  r_idx: 2
  r_shift: 5
3809:
- l_pos: false
  l_idx: 0
  r_pos: true
  r_idx: 0
  r_shift: 4
- l_pos: false
  l_idx: 0
  r_pos: true
  r_idx: 1
  r_shift: 3
- l_pos: true
  l_idx: 0
  r_pos: true
  r_idx: 2
  r_shift: 5
3811:
- l_pos: false
  l_idx: 0
  r_pos: true
  r_idx: 0
  r_shift: 4
- l_pos: false
  l_idx: 1
  r_pos: true
  r_idx: 1
  r_shift: 7
- l_pos: true
  l_idx: 0
  r_pos: true
  r_idx: 2
  r_shift: 1
3813:
- l_pos: false
  l_idx: 0
  r_pos: true
  r_idx: 0
  r_shift: 5
- l_pos: false
  l_idx: 1
  r_pos: true
  r_idx: 1
  r_shift: 5
- l_pos: false
  l_idx: 1
  r_pos: true
  r_idx: 2
  r_shift: 2
3815:
- l_pos: false
  l_idx: 0
  r_pos: true
  r_idx: 0
  r_shift: 3
- l_pos: true
  l_idx: 1
  r_pos: true
  r_idx: 1
  r_shift: 4
- l_pos: true
  l_idx: 1
  r_pos: true
  r_idx: 2
  r_shift: 5
3817:
- l_pos: true
  l_idx: 0
  r_pos: true
  r_idx: 0
  r_shift: 3
- l_pos: false
  l_idx: 1
  r_pos: true
  r_idx: 0
  r_shift: 7
- l_pos: true
  l_idx: 1
  r_pos: true
  r_idx: 2
  r_shift: 5
3819:
- l_pos: false
  l_idx: 0
  r_pos: true
  r_idx: 0
  r_shift: 4
- l_pos: false
  l_idx: 0
  r_pos: true
  r_idx: 1
  r_shift: 4
- l_pos: false
  l_idx: 0
  r_pos: true
  r_idx: 2
  r_shift: 2
- l_pos: false
  l_idx: 0
  r_pos: true
  r_idx: 3
  r_shift: 2
3821:
- l_pos: false
  l_idx: 0
  r_pos: true
  r_idx: 0
  r_shift: 4
- l_pos: false
  l_idx: 0
  r_pos: true
  r_idx: 1
  r_shift: 6
- l_pos: false
  l_idx: 1
  r_pos: true
  r_idx: 2
  r_shift: 2
3823:
- l_pos: false
  l_idx: 0
  r_pos: true
  r_idx: 0
  r_shift: 4
- l_pos: false
  l_idx: 0
  r_pos: true
  r_idx: 1
  r_shift: 4
- l_pos: false
  l_idx: 0
  r_pos: true
  r_idx: 2
  r_shift: 4
3825:
- l_pos: false
  l_idx: 0
  r_pos: true
  r_idx: 0
  r_shift: 4
- l_pos: false
  l_idx: 1
  r_pos: true
  r_idx: 1
  r_shift: 8
3827:
- l_pos: false
  l_idx: 0
  r_pos: true
  r_idx: 0
  r_shift: 4
- l_pos: true
  l_idx: 0
  r_pos: true
  r_idx: 1
  r_shift: 7
- l_pos: false
  l_idx: 1
  r_pos: true
  r_idx: 2
  r_shift: 1
3829:
- l_pos: false
  l_idx: 0
  r_pos: true
  r_idx: 0
  r_shift: 4
- l_pos: true
  l_idx: 0
  r_pos: true
  r_idx: 1
  r_shift: 6
- l_pos: false
  l_idx: 1
  r_pos: true
  r_idx: 2
  r_shift: 2
3831:
- l_pos: false
  l_idx: 0
  r_pos: true
  r_idx: 0
  r_shift: 4
- l_pos: false
  l_idx: 0
  r_pos: true
  r_idx: 1
  r_shift: 5
- l_pos: false
  l_idx: 0
  r_pos: true
  r_idx: 2
  r_shift: 3
3833:
- l_pos: false
  l_idx: 0
  r_pos: true
  r_idx: 0
  r_shift: 4
- l_pos: false
  l_idx: 0
  r_pos: true
  r_idx: 1
  r_shift: 5
- l_pos: true
  l_idx: 0
  r_pos: true
  r_idx: 2
  r_shift: 3
3835:
- l_pos: false
  l_idx: 0
  r_pos: true
  r_idx: 0
  r_shift: 4
- l_pos: false
  l_idx: 0
  r_pos: true
  r_idx: 1
  r_shift: 6
- l_pos: false
  l_idx: 0
  r_pos: true
  r_idx: 2
  r_shift: 2
3837:
- l_pos: false
  l_idx: 0
  r_pos: true
  r_idx: 0
  r_shift: 4
- l_pos: false
  l_idx: 0
  r_pos: true
  r_idx: 1
  r_shift: 6
- l_pos: true
  l_idx: 0
  r_pos: true
  r_idx: 2
  r_shift: 2
3839:
- l_pos: false
  l_idx: 0
  r_pos: true
  r_idx: 0
  r_shift: 4
- l_pos: false
  l_idx: 0
  r_pos: true
  r_idx: 1
  r_shift: 8
".
Definition text_61 : string := "3841:
- l_pos: false
  l_idx: 0
  r_pos: true
  r_idx: 0
  r_shift: 4
- l_pos: true
  l_idx: 0
  r_pos: true
  r_idx: 1
  r_shift: 8
3843:
- l_pos: false
  l_idx: 0
  r_pos: true
  r_idx: 0
  r_shift: 4
- l_pos: true
  l_idx: 0
  r_pos: true
  r_idx: 1
  r_shift: 6
- l_pos: false
  l_idx: 0
  r_pos: true
  r_idx: 2
  r_shift: 2
3845:
- l_pos: false
  l_idx: 0
  r_pos: true
  r_idx: 0
  r_shift: 4
- l_pos: true
  l_idx: 0
  r_pos: true
  r_idx: 1
  r_shift: 6
- l_pos: true
  l_idx: 0
  r_pos: true
  r_idx: 2
  r_shift: 2
3847:
- l_pos: false
  l_idx: 0
  r_pos: true
  r_idx: 0
  r_shift: 4
- l_pos: true
  l_idx: 0
  r_pos: true
  r_idx: 1
  r_shift: 5
- l_pos: false
  l_idx: 0
  r_pos: true
  r_idx: 2
  r_shift: 3
3849:
- l_pos: false
  l_idx: 0
  r_pos: true
  r_idx: 0
  r_shift: 4
- l_pos: true
  l_idx: 0
  r_pos: true
  r_idx: 1
  r_shift: 5
- l_pos: true
  l_idx: 0
  r_pos: true
  r_idx: 2
  r_shift: 3
3851:
- l_pos: false
  l_idx: 0
  r_pos: true
  r_idx: 0
  r_shift: 4
- l_pos: false
  l_idx: 0
  r_pos: true
  r_idx: 1
  r_shift: 6
- l_pos: true
  l_idx: 1
  r_pos: true
  r_idx: 2
  r_shift: 2
3853:
- l_pos: false
  l_idx: 0
  r_pos: true
  r_idx: 0
  r_shift: 4
- l_pos: false
  l_idx: 0
  r_pos: true
  r_idx: 1
  r_shift: 7
- l_pos: true
  l_idx: 1
  r_pos: true
  r_idx: 2
  r_shift: 1
3855:
- l_pos: false
  l_idx: 0
  r_pos: true
  r_idx: 0
  r_shift: 4
- l_pos: true
  l_idx: 1
  r_pos: true
  r_idx: 1
  r_shift: 8
3857:
- l_pos: false
  l_idx: 0
  r_pos: true
  r_idx: 0
  r_shift: 4
- l_pos: true
  l_idx: 0
  r_pos: true
  r_idx: 1
  r_shift: 4
- l_pos: true
  l_idx: 0
  r_pos: true
  r_idx: 2
  r_shift: 4
3859:
- l_pos: false
  l_idx: 0
  r_pos: true
  r_idx: 0
  r_shift: 4
- l_pos: true
  l_idx: 0
  r_pos: true
  r_idx: 1
  r_shift: 6
- l_pos: true
  l_idx: 1
  r_pos: true
  r_idx: 2
  r_shift: 2
3861:
- l_pos: false
  l_idx: 0
  r_pos: true
  r_idx: 0
  r_shift: 4
- l_pos: true
  l_idx: 0
  r_pos: true
  r_idx: 1
  r_shift: 4
- l_pos: true
  l_idx: 0
  r_pos: true
  r_idx: 2
  r_shift: 2
- l_pos: true
  l_idx: 0
  r_pos: true
  r_idx: 3
  r_shift: 2
3863:
- l_pos: false
  l_idx: 0
  r_pos: true
  r_idx: 0
  r_shift: 4
- l_pos: true
  l_idx: 0
  r_pos: true
  r_idx: 1
  r_shift: 5
- l_pos: true
  l_idx: 1
  r_pos: true
  r_idx: 2
  r_shift: 3
3865:
- l_pos: false
  l_idx: 0
  r_pos: true
  r_idx: 0
  r_shift: 3
- l_pos: false
  l_idx: 1
  r_pos: true
  r_idx: 0
  r_shift: 7
- l_pos: false
  l_idx: 1
  r_pos: true
  r_idx: 2
  r_shift: 5
3867:
- l_pos: false
  l_idx: 0
  r_pos: true
  r_idx: 0
  r_shift: 4
- l_pos: true
  l_idx: 0
  r_pos: true
  r_idx: 1
  r_shift: 3
- l_pos: false
  l_idx: 0
  r_pos: true
  r_idx: 2
  r_shift: 3
- l_pos: false
  l_idx: 0
  r_pos: true
  r_idx: 3
  r_shift: 2
3869:
- l_pos: false
  l_idx: 0
  r_pos: true
  r_idx: 0
  r_shift: 4
- l_pos: true
  l_idx: 1
  r_pos: true
  r_idx: 1
  r_shift: 7
- l_pos: false
  l_idx: 0
  r_pos: true
  r_idx: 2
  r_shift: 1
3871:
- l_pos: false
  l_idx: 0
  r_pos: true
  r_idx: 0
  r_shift: 4
- l_pos: true
  l_idx: 0
  r_pos: true
  r_idx: 1
  r_shift: 3
- l_pos: false
  l_idx: 0
  r_pos: true
  r_idx: 2
  r_shift: 5
3873:
- l_pos: false
  l_idx: 0
  r_pos: true
  r_idx: 0
  r_shift: 4
- l_pos: true
  l_idx: 0
  r_pos: true
  r_idx: 1
  r_shift: 3
- l_pos: true
  l_idx: 0
  r_pos: true
  r_idx: 2
  r_shift: 5
3875:
- l_pos: false
  l_idx: 0
  r_pos: true
  r_idx: 0
  r_shift: 5
- l_pos: false
  l_idx: 1
  r_pos: true
  r_idx: 1
  r_shift: 5
- l_pos: true
  l_idx: 1
  r_pos: true
  r_idx: 2
  r_shift: 2
3877:
- l_pos: false
  l_idx: 0
  r_pos: true
  r_idx: 0
  r_shift: 4
- l_pos: true
  l_idx: 0
  r_pos: true
  r_idx: 1
  r_shift: 3
- l_pos: true
  l_idx: 0
  r_pos: true
  r_idx: 2
  r_shift: 3
- l_pos: true
  l_idx: 0
  r_pos: true
  r_idx: 3
  r_shift: 2
3879:
- l_pos: false
  l_idx: 0
  r_pos: true
  r_idx: 0
  r_shift: 3
- l_pos: false
  l_idx: 1
  r_pos: true
  r_idx: 0
  r_shift: 7
- l_pos: true
  l_idx: 1
  r_pos: true
  r_idx: 2
  r_shift: 5
3881:
- l_pos: false
  l_idx: 0
  r_pos: true
  r_idx: 0
  r_shift: 4
- l_pos: true
  l_idx: 0
  r_pos: true
  r_idx: 1
  r_shift: 3
- l_pos: true
  l_idx: 0
  r_pos: true
  r_idx: 2
  r_shift: 2
- l_pos: true
  l_idx: 0
  r_pos: true
  r_idx: 3
  r_shift: 3
3883:
- l_pos: false
  l_idx: 0
  r_pos: true
  r_idx: 0
  r_shift: 4
- l_pos: false
  l_idx: 0
  r_pos: true
  r_idx: 1
  r_shift: 4
- l_pos: true
  l_idx: 1
  r_pos: true
  r_idx: 2
  r_shift: 2
- l_pos: false
  l_idx: 0
  r_pos: true
  r_idx: 3
  r_shift: 2
3885:
- l_pos: false
  l_idx: 0
  r_pos: true
  r_idx: 0
  r_shift: 4
- l_pos: true
  l_idx: 1
  r_pos: true
  r_idx: 1
  r_shift: 6
- l_pos: false
  l_idx: 1
  r_pos: true
  r_idx: 2
  r_shift: 2
3887:
- l_pos: false
  l_idx: 0
  r_pos: true
  r_idx: 0
  r_shift: 4
- l_pos: true
  l_idx: 0
  r_pos: true
  r_idx: 1
  r_shift: 3
- l_pos: true
  l_idx: 1
  r_pos: true
  r_idx: 2
  r_shift: 5
3889:
- l_pos: false
  l_idx: 0
  r_pos: true
  r_idx: 0
  r_shift: 4
- l_pos: true
  l_idx: 0
  r_pos: true
  r_idx: 1
  r_shift: 2
- l_pos: false
  l_idx: 1
  r_pos: true
  r_idx: 2
  r_shift: 6
3891:
- l_pos: true
  l_idx: 0
  r_pos: true
  r_idx: 0
  r_shift: 1
- l_pos: false
  l_idx: 1
  r_pos: true
  r_idx: 0
  r_shift: 6
- l_pos: false
  l_idx: 1
  r_pos: true
  r_idx: 2
  r_shift: 4
- l_pos: false
  l_idx: 0
  r_pos: true
  r_idx: 3
  r_shift: 2
3893:
- l_pos: true
  l_idx: 0
  r_pos: true
  r_idx: 0
  r_shift: 1
- l_pos: false
  l_idx: 1
  r_pos: true
  r_idx: 0
  r_shift: 6
- l_pos: false
  l_idx: 1
  r_pos: true
  r_idx: 2
  r_shift: 4
- l_pos: true
  l_idx: 0
  r_pos: true
  r_idx: 3
  r_shift: 2
3895:
- l_pos: false
  l_idx: 0
  r_pos: true
  r_idx: 0
  r_shift: 4
- l_pos: true
  l_idx: 0
  r_pos: true
  r_idx: 1
  r_shift: 2
- l_pos: false
  l_idx: 0
  r_pos: true
  r_idx: 2
  r_shift: 3
- l_pos: false
  l_idx: 0
  r_pos: true
  r_idx: 3
  r_shift: 3
3897:
- l_pos: false
  l_idx: 0
  r_pos: true
  r_idx: 0
  r_shift: 4
- l_pos: true
  l_idx: 0
  r_pos: true
  r_idx: 1
  r_shift: 2
- l_pos: false
  l_idx: 0
  r_pos: true
  r_idx: 2
  r_shift: 3
- l_pos: true
  l_idx: 0
  r_pos: true
  r_idx: 3
  r_shift: 3
3899:
- l_pos: false
  l_idx: 0
  r_pos: true
  r_idx: 0
  r_shift: 4
- l_pos: true
  l_idx: 1
  r_pos: true
  r_idx: 1
  r_shift: 6
- l_pos: false
  l_idx: 0
  r_pos: true
  r_idx: 2
  r_shift: 2
3901:
- l_pos: false
  l_idx: 0
  r_pos: true
  r_idx: 0
  r_shift: 4
- l_pos: true
  l_idx: 1
  r_pos: true
  r_idx: 1
  r_shift: 6
- l_pos: true
  l_idx: 0
  r_pos: true
  r_idx: 2
  r_shift: 2
3903:
- l_pos: false
  l_idx: 0
  r_pos: true
  r_idx: 0
  r_shift: 4
- l_pos: true
  l_idx: 0
  r_pos: true
  r_idx: 1
  r_shift: 2
- l_pos: false
  l_idx: 0
  r_pos: true
  r_idx: 2
  r_shift: 6
".
Definition text_62 : string := "3905:
- l_pos: false
  l_idx: 0
  r_pos: true
  r_idx: 0
  r_shift: 4
- l_pos: true
  l_idx: 0
  r_pos: true
  r_idx: 1
  r_shift: 2
- l_pos: true
  l_idx: 0
  r_pos: true
  r_idx: 2
  r_shift: 6
3907:
- l_pos: false
  l_idx: 0
  r_pos: true
  r_idx: 0
  r_shift: 5
- l_pos: false
  l_idx: 1
  r_pos: true
  r_idx: 1
  r_shift: 6
- l_pos: true
  l_idx: 0
  r_pos: true
  r_idx: 2
  r_shift: 1
3909:
- l_pos: false
  l_idx: 0
  r_pos: true
  r_idx: 0
  r_shift: 4
- l_pos: true
  l_idx: 0
  r_pos: true
  r_idx: 1
  r_shift: 2
- l_pos: true
  l_idx: 0
  r_pos: true
  r_idx: 2
  r_shift: 4
- l_pos: true
  l_idx: 0
  r_pos: true
  r_idx: 3
  r_shift: 2
3911:
- l_pos: false
  l_idx: 0
  r_pos: true
  r_idx: 0
  r_shift: 4
- l_pos: true
  l_idx: 0
  r_pos: true
  r_idx: 1
  r_shift: 2
- l_pos: true
  l_idx: 0
  r_pos: true
  r_idx: 2
  r_shift: 3
- l_pos: false
  l_idx: 0
  r_pos: true
  r_idx: 3
  r_shift: 3
3913:
- l_pos: false
  l_idx: 0
  r_pos: true
  r_idx: 0
  r_shift: 4
- l_pos: true
  l_idx: 0
  r_pos: true
  r_idx: 1
  r_shift: 2
- l_pos: true
  l_idx: 0
  r_pos: true
  r_idx: 2
  r_shift: 3
- l_pos: true
  l_idx: 0
  r_pos: true
  r_idx: 3
  r_shift: 3
3915:
- l_pos: false
  l_idx: 0
  r_pos: true
  r_idx: 0
  r_shift: 4
- l_pos: true
  l_idx: 1
  r_pos: true
  r_idx: 1
  r_shift: 6
- l_pos: true
  l_idx: 1
  r_pos: true
  r_idx: 2
  r_shift: 2
3917:
- l_pos: true
  l_idx: 0
  r_pos: true
  r_idx: 0
  r_shift: 1
- l_pos: false
  l_idx: 1
  r_pos: true
  r_idx: 0
  r_shift: 6
- l_pos: true
  l_idx: 1
  r_pos: true
  r_idx: 2
  r_shift: 4
- l_pos: true
  l_idx: 0
  r_pos: true
  r_idx: 3
  r_shift: 2
3919:
- l_pos: false
  l_idx: 0
  r_pos: true
  r_idx: 0
  r_shift: 4
- l_pos: true
  l_idx: 0
  r_pos: true
  r_idx: 1
  r_shift: 2
- l_pos: true
  l_idx: 1
  r_pos: true
  r_idx: 2
  r_shift: 6
3921:
- l_pos: false
  l_idx: 0
  r_pos: true
  r_idx: 0
  r_shift: 5
- l_pos: false
  l_idx: 0
  r_pos: true
  r_idx: 1
  r_shift: 3
- l_pos: false
  l_idx: 1
  r_pos: true
  r_idx: 2
  r_shift: 4
3923:
- l_pos: false
  l_idx: 0
  r_pos: true
  r_idx: 0
  r_shift: 5
- l_pos: true
  l_idx: 0
  r_pos: true
  r_idx: 1
  r_shift: 3
- l_pos: false
  l_idx: 1
  r_pos: true
  r_idx: 2
  r_shift: 3
- l_pos: true
  l_idx: 0
  r_pos: true
  r_idx: 3
  r_shift: 1
3925:
- l_pos: true
  l_idx: 0
  r_pos: true
  r_idx: 0
  r_shift: 2
- l_pos: false
  l_idx: 1
  r_pos: true
  r_idx: 0
  r_shift: 7
- l_pos: false
  l_idx: 1
  r_pos: true
  r_idx: 2
  r_shift: 4
- l_pos: false
  l_idx: 0
  r_pos: true
  r_idx: 3
  r_shift: 1
3927:
- l_pos: true
  l_idx: 0
  r_pos: true
  r_idx: 0
  r_shift: 5
- l_pos: false
  l_idx: 1
  r_pos: true
  r_idx: 1
  r_shift: 4
- l_pos: false
  l_idx: 1
  r_pos: true
  r_idx: 2
  r_shift: 3
3929:
- l_pos: false
  l_idx: 0
  r_pos: true
  r_idx: 0
  r_shift: 5
- l_pos: false
  l_idx: 0
  r_pos: true
  r_idx: 1
  r_shift: 4
- l_pos: false
  l_idx: 1
  r_pos: true
  r_idx: 2
  r_shift: 3
3931:
- l_pos: true
  l_idx: 0
  r_pos: true
  r_idx: 0
  r_shift: 2
- l_pos: false
  l_idx: 1
  r_pos: true
  r_idx: 0
  r_shift: 7
- l_pos: false
  l_idx: 1
  r_pos: true
  r_idx: 2
  r_shift: 5
3933:
- l_pos: false
  l_idx: 0
  r_pos: true
  r_idx: 0
  r_shift: 5
- l_pos: false
  l_idx: 0
  r_pos: true
  r_idx: 1
  r_shift: 5
- l_pos: false
  l_idx: 1
  r_pos: true
  r_idx: 2
  r_shift: 2
3935:
- l_pos: false
  l_idx: 0
  r_pos: true
  r_idx: 0
  r_shift: 5
- l_pos: false
  l_idx: 0
  r_pos: true
  r_idx: 1
  r_shift: 2
- l_pos: false
  l_idx: 0
  r_pos: true
  r_idx: 2
  r_shift: 5
3937:
- l_pos: false
  l_idx: 0
  r_pos: true
  r_idx: 0
  r_shift: 5
- l_pos: false
  l_idx: 1
  r_pos: true
  r_idx: 1
  r_shift: 7
3939:
- l_pos: false
  l_idx: 0
  r_pos: true
  r_idx: 0
  r_shift: 5
- l_pos: true
  l_idx: 0
  r_pos: true
  r_idx: 1
  r_shift: 6
- l_pos: false
  l_idx: 1
  r_pos: true
  r_idx: 2
  r_shift: 1
3941:
- l_pos: true
  l_idx: 0
  r_pos: true
  r_idx: 0
  r_shift: 2
- l_pos: false
  l_idx: 1
  r_pos: true
  r_idx: 0
  r_shift: 7
- l_pos: true
  l_idx: 1
  r_pos: true
  r_idx: 2
  r_shift: 5
3943:
- l_pos: true
  l_idx: 0
  r_pos: true
  r_idx: 0
  r_shift: 3
- l_pos: false
  l_idx: 1
  r_pos: true
  r_idx: 0
  r_shift: 8
- l_pos: false
  l_idx: 1
  r_pos: true
  r_idx: 2
  r_shift: 4
3945:
- l_pos: false
  l_idx: 0
  r_pos: true
  r_idx: 0
  r_shift: 4
- l_pos: true
  l_idx: 1
  r_pos: true
  r_idx: 1
  r_shift: 5
- l_pos: false
  l_idx: 1
  r_pos: true
  r_idx: 2
  r_shift: 3
3947:
- l_pos: false
  l_idx: 0
  r_pos: true
  r_idx: 0
  r_shift: 5
- l_pos: false
  l_idx: 0
  r_pos: true
  r_idx: 1
  r_shift: 3
- l_pos: false
  l_idx: 0
  r_pos: true
  r_idx: 2
  r_shift: 2
- l_pos: false
  l_idx: 0
  r_pos: true
  r_idx: 3
  r_shift: 2
3949:
- l_pos: false
  l_idx: 0
  r_pos: true
  r_idx: 0
  r_shift: 5
- l_pos: false
  l_idx: 0
  r_pos: true
  r_idx: 1
  r_shift: 3
- l_pos: false
  l_idx: 0
  r_pos: true
  r_idx: 2
  r_shift: 2
- l_pos: true
  l_idx: 0
  r_pos: true
  r_idx: 3
  r_shift: 2
3951:
- l_pos: false
  l_idx: 0
  r_pos: true
  r_idx: 0
  r_shift: 5
- l_pos: false
  l_idx: 0
  r_pos: true
  r_idx: 1
  r_shift: 3
- l_pos: false
  l_idx: 0
  r_pos: true
  r_idx: 2
  r_shift: 4
3953:
- l_pos: false
  l_idx: 0
  r_pos: true
  r_idx: 0
  r_shift: 5
- l_pos: false
  l_idx: 0
  r_pos: true
  r_idx: 1
  r_shift: 3
- l_pos: true
  l_idx: 0
  r_pos: true
  r_idx: 2
  r_shift: 4
3955:
- l_pos: false
  l_idx: 0
  r_pos: true
  r_idx: 0
  r_shift: 5
- l_pos: false
  l_idx: 0
  r_pos: true
  r_idx: 1
  r_shift: 3
- l_pos: true
  l_idx: 0
  r_pos: true
  r_idx: 2
  r_shift: 2
- l_pos: false
  l_idx: 0
  r_pos: true
  r_idx: 3
  r_shift: 2
3957:
- l_pos: false
  l_idx: 0
  r_pos: true
  r_idx: 0
  r_shift: 5
- l_pos: false
  l_idx: 0
  r_pos: true
  r_idx: 1
  r_shift: 3
- l_pos: true
  l_idx: 0
  r_pos: true
  r_idx: 2
  r_shift: 2
- l_pos: true
  l_idx: 0
  r_pos: true
  r_idx: 3
  r_shift: 2
3959:
- l_pos: false
  l_idx: 0
  r_pos: true
  r_idx: 0
  r_shift: 5
- l_pos: false
  l_idx: 0
  r_pos: true
  r_idx: 1
  r_shift: 4
- l_pos: false
  l_idx: 0
  r_pos: true
  r_idx: 2
  r_shift: 3
3961:
- l_pos: false
  l_idx: 0
  r_pos: true
  r_idx: 0
  r_shift: 5
- l_pos: false
  l_idx: 0
  r_pos: true
  r_idx: 1
  r_shift: 4
- l_pos: true
  l_idx: 0
  r_pos: true
  r_idx: 2
  r_shift: 3
3963:
- l_pos: false
  l_idx: 0
  r_pos: true
  r_idx: 0
  r_shift: 5
- l_pos: false
  l_idx: 0
  r_pos: true
  r_idx: 1
  r_shift: 5
- l_pos: false
  l_idx: 0
  r_pos: true
  r_idx: 2
  r_shift: 2
3965:
- l_pos: false
  l_idx: 0
  r_pos: true
  r_idx: 0
  r_shift: 5
- l_pos: false
  l_idx: 0
  r_pos: true
  r_idx: 1
  r_shift: 5
- l_pos: true
  l_idx: 0
  r_pos: true
  r_idx: 2
  r_shift: 2
3967:
- l_pos: false
  l_idx: 0
  r_pos: true
  r_idx: 0
  r_shift: 5
- l_pos: false
  l_idx: 0
  r_pos: true
  r_idx: 1
  r_shift: 7
".
Definition text_63 : string := "3969:
- l_pos: false
  l_idx: 0
  r_pos: true
  r_idx: 0
  r_shift: 5
- l_pos: true
  l_idx: 0
  r_pos: true
  r_idx: 1
  r_shift: 7
3971:
- l_pos: false
  l_idx: 0
  r_pos: true
  r_idx: 0
  r_shift: 5
- l_pos: true
  l_idx: 0
  r_pos: true
  r_idx: 1
  r_shift: 5
- l_pos: false
  l_idx: 0
  r_pos: true
  r_idx: 2
  r_shift: 2
3973:
- l_pos: false
  l_idx: 0
  r_pos: true
  r_idx: 0
  r_shift: 5
- l_pos: true
  l_idx: 0
  r_pos: true
  r_idx: 1
  r_shift: 5
- l_pos: true
  l_idx: 0
  r_pos: true
  r_idx: 2
  r_shift: 2
3975:
- l_pos: false
  l_idx: 0
  r_pos: true
  r_idx: 0
  r_shift: 5
- l_pos: true
  l_idx: 0
  r_pos: true
  r_idx: 1
  r_shift: 4
- l_pos: false
  l_idx: 0
  r_pos: true
  r_idx: 2
  r_shift: 3
3977:
- l_pos: false
  l_idx: 0
  r_pos: true
  r_idx: 0
  r_shift: 5
- l_pos: true
  l_idx: 0
  r_pos: true
  r_idx: 1
  r_shift: 4
- l_pos: true
  l_idx: 0
  r_pos: true
  r_idx: 2
  r_shift: 3
3979:
- l_pos: false
  l_idx: 0
  r_pos: true
  r_idx: 0
  r_shift: 5
- l_pos: true
  l_idx: 0
  r_pos: true
  r_idx: 1
  r_shift: 3
- l_pos: false
  l_idx: 0
  r_pos: true
  r_idx: 2
  r_shift: 2
- l_pos: false
  l_idx: 0
  r_pos: true
  r_idx: 3
  r_shift: 2
3981:
- l_pos: false
  l_idx: 0
  r_pos: true
  r_idx: 0
  r_shift: 5
- l_pos: true
  l_idx: 0
  r_pos: true
  r_idx: 1
  r_shift: 3
- l_pos: false
  l_idx: 0
  r_pos: true
  r_idx: 2
  r_shift: 2
- l_pos: true
  l_idx: 0
  r_pos: true
  r_idx: 3
  r_shift: 2
3983:
- l_pos: false
  l_idx: 0
  r_pos: true
  r_idx: 0
  r_shift: 5
- l_pos: true
  l_idx: 0
  r_pos: true
  r_idx: 1
  r_shift: 3
- l_pos: false
  l_idx: 0
  r_pos: true
  r_idx: 2
  r_shift: 4
3985:
- l_pos: false
  l_idx: 0
  r_pos: true
  r_idx: 0
  r_shift: 5
- l_pos: true
  l_idx: 0
  r_pos: true
  r_idx: 1
  r_shift: 3
- l_pos: true
  l_idx: 0
  r_pos: true
  r_idx: 2
  r_shift: 4
3987:
- l_pos: false
  l_idx: 0
  r_pos: true
  r_idx: 0
  r_shift: 5
- l_pos: true
  l_idx: 0
  r_pos: true
  r_idx: 1
  r_shift: 3
- l_pos: true
  l_idx: 0
  r_pos: true
  r_idx: 2
  r_shift: 2
- l_pos: false
  l_idx: 0
  r_pos: true
  r_idx: 3
  r_shift: 2
3989:
- l_pos: false
  l_idx: 0
  r_pos: true
  r_idx: 0
  r_shift: 5
- l_pos: true
  l_idx: 0
  r_pos: true
  r_idx: 1
  r_shift: 3
- l_pos: true
  l_idx: 0
  r_pos: true
  r_idx: 2
  r_shift: 2
- l_pos: true
  l_idx: 0
  r_pos: true
  r_idx: 3
  r_shift: 2
3991:
- l_pos: false
  l_idx: 0
  r_pos: true
  r_idx: 0
  r_shift: 3
- l_pos: false
  l_idx: 1
  r_pos: true
  r_idx: 0
  r_shift: 8
- l_pos: true
  l_idx: 1
  r_pos: true
  r_idx: 2
  r_shift: 4
3993:
- l_pos: true
  l_idx: 0
  r_pos: true
  r_idx: 0
  r_shift: 5
- l_pos: false
  l_idx: 1
  r_pos: true
  r_idx: 1
  r_shift: 4
- l_pos: true
  l_idx: 1
  r_pos: true
  r_idx: 2
  r_shift: 3
3995:
- l_pos: false
  l_idx: 0
  r_pos: true
  r_idx: 0
  r_shift: 5
- l_pos: false
  l_idx: 0
  r_pos: true
  r_idx: 1
  r_shift: 5
- l_pos: true
  l_idx: 1
  r_pos: true
  r_idx: 2
  r_shift: 2
3997:
- l_pos: true
  l_idx: 0
  r_pos: true
  r_idx: 0
  r_shift: 1
- l_pos: false
  l_idx: 1
  r_pos: true
  r_idx: 0
  r_shift: 7
- l_pos: false
  l_idx: 1
  r_pos: true
  r_idx: 2
  r_shift: 5
3999:
- l_pos: false
  l_idx: 0
  r_pos: true
  r_idx: 0
  r_shift: 5
- l_pos: true
  l_idx: 1
  r_pos: true
  r_idx: 1
  r_shift: 7
4001:
- l_pos: false
  l_idx: 0
  r_pos: true
  r_idx: 0
  r_shift: 5
- l_pos: true
  l_idx: 0
  r_pos: true
  r_idx: 1
  r_shift: 2
- l_pos: true
  l_idx: 0
  r_pos: true
  r_idx: 2
  r_shift: 5
4003:
- l_pos: true
  l_idx: 0
  r_pos: true
  r_idx: 0
  r_shift: 1
- l_pos: false
  l_idx: 1
  r_pos: true
  r_idx: 0
  r_shift: 7
- l_pos: true
  l_idx: 1
  r_pos: true
  r_idx: 2
  r_shift: 5
4005:
- l_pos: false
  l_idx: 0
  r_pos: true
  r_idx: 0
  r_shift: 5
- l_pos: true
  l_idx: 0
  r_pos: true
  r_idx: 1
  r_shift: 2
- l_pos: true
  l_idx: 0
  r_pos: true
  r_idx: 2
  r_shift: 3
- l_pos: true
  l_idx: 0
  r_pos: true
  r_idx: 3
  r_shift: 2
4007:
- l_pos: false
  l_idx: 0
  r_pos: true
  r_idx: 0
  r_shift: 5
- l_pos: true
  l_idx: 0
  r_pos: true
  r_idx: 1
  r_shift: 4
- l_pos: true
  l_idx: 1
  r_pos: true
  r_idx: 2
  r_shift: 3
4009:
- l_pos: false
  l_idx: 0
  r_pos: true
  r_idx: 0
  r_shift: 5
- l_pos: true
  l_idx: 0
  r_pos: true
  r_idx: 1
  r_shift: 2
- l_pos: true
  l_idx: 0
  r_pos: true
  r_idx: 2
  r_shift: 2
- l_pos: true
  l_idx: 0
  r_pos: true
  r_idx: 3
  r_shift: 3
4011:
- l_pos: true
  l_idx: 0
  r_pos: true
  r_idx: 0
  r_shift: 2
- l_pos: false
  l_idx: 1
  r_pos: true
  r_idx: 0
  r_shift: 8
- l_pos: false
  l_idx: 1
  r_pos: true
  r_idx: 2
  r_shift: 4
4013:
- l_pos: false
  l_idx: 0
  r_pos: true
  r_idx: 0
  r_shift: 6
- l_pos: false
  l_idx: 0
  r_pos: true
  r_idx: 1
  r_shift: 2
- l_pos: false
  l_idx: 0
  r_pos: true
  r_idx: 2
  r_shift: 2
- l_pos: true
  l_idx: 0
  r_pos: true
  r_idx: 3
  r_shift: 2
4015:
- l_pos: false
  l_idx: 0
  r_pos: true
  r_idx: 0
  r_shift: 6
- l_pos: false
  l_idx: 0
  r_pos: true
  r_idx: 1
  r_shift: 2
- l_pos: false
  l_idx: 0
  r_pos: true
  r_idx: 2
  r_shift: 4
4017:
- l_pos: false
  l_idx: 0
  r_pos: true
  r_idx: 0
  r_shift: 6
- l_pos: false
  l_idx: 0
  r_pos: true
  r_idx: 1
  r_shift: 2
- l_pos: true
  l_idx: 0
  r_pos: true
  r_idx: 2
  r_shift: 4
4019:
- l_pos: false
  l_idx: 0
  r_pos: true
  r_idx: 0
  r_shift: 6
- l_pos: false
  l_idx: 0
  r_pos: true
  r_idx: 1
  r_shift: 2
- l_pos: true
  l_idx: 0
  r_pos: true
  r_idx: 2
  r_shift: 2
- l_pos: false
  l_idx: 0
  r_pos: true
  r_idx: 3
  r_shift: 2
4021:
- l_pos: true
  l_idx: 0
  r_pos: true
  r_idx: 0
  r_shift: 2
- l_pos: false
  l_idx: 1
  r_pos: true
  r_idx: 0
  r_shift: 8
- l_pos: true
  l_idx: 1
  r_pos: true
  r_idx: 2
  r_shift: 4
4023:
- l_pos: false
  l_idx: 0
  r_pos: true
  r_idx: 0
  r_shift: 6
- l_pos: false
  l_idx: 0
  r_pos: true
  r_idx: 1
  r_shift: 3
- l_pos: false
  l_idx: 0
  r_pos: true
  r_idx: 2
  r_shift: 3
4025:
- l_pos: false
  l_idx: 0
  r_pos: true
  r_idx: 0
  r_shift: 6
- l_pos: false
  l_idx: 0
  r_pos: true
  r_idx: 1
  r_shift: 3
- l_pos: true
  l_idx: 0
  r_pos: true
  r_idx: 2
  r_shift: 3
4027:
- l_pos: false
  l_idx: 0
  r_pos: true
  r_idx: 0
  r_shift: 6
- l_pos: false
  l_idx: 0
  r_pos: true
  r_idx: 1
  r_shift: 4
- l_pos: false
  l_idx: 0
  r_pos: true
  r_idx: 2
  r_shift: 2
4029:
- l_pos: false
  l_idx: 0
  r_pos: true
  r_idx: 0
  r_shift: 6
- l_pos: false
  l_idx: 0
  r_pos: true
  r_idx: 1
  r_shift: 4
- l_pos: true
  l_idx: 0
  r_pos: true
  r_idx: 2
  r_shift: 2
4031:
- l_pos: false
  l_idx: 0
  r_pos: true
  r_idx: 0
  r_shift: 6
- l_pos: false
  l_idx: 0
  r_pos: true
  r_idx: 1
  r_shift: 6
".
Definition text_64 : string := "4033:
- l_pos: false
  l_idx: 0
  r_pos: true
  r_idx: 0
  r_shift: 6
- l_pos: true
  l_idx: 0
  r_pos: true
  r_idx: 1
  r_shift: 6
4035:
- l_pos: false
  l_idx: 0
  r_pos: true
  r_idx: 0
  r_shift: 6
- l_pos: true
  l_idx: 0
  r_pos: true
  r_idx: 1
  r_shift: 4
- l_pos: false
  l_idx: 0
  r_pos: true
  r_idx: 2
  r_shift: 2
4037:
- l_pos: false
  l_idx: 0
  r_pos: true
  r_idx: 0
  r_shift: 6
- l_pos: true
  l_idx: 0
  r_pos: true
  r_idx: 1
  r_shift: 4
- l_pos: true
  l_idx: 0
  r_pos: true
  r_idx: 2
  r_shift: 2
4039:
- l_pos: false
  l_idx: 0
  r_pos: true
  r_idx: 0
  r_shift: 6
- l_pos: true
  l_idx: 0
  r_pos: true
  r_idx: 1
  r_shift: 3
- l_pos: false
  l_idx: 0
  r_pos: true
  r_idx: 2
  r_shift: 3
4041:
- l_pos: false
  l_idx: 0
  r_pos: true
  r_idx: 0
  r_shift: 6
- l_pos: true
  l_idx: 0
  r_pos: true
  r_idx: 1
  r_shift: 3
- l_pos: true
  l_idx: 0
  r_pos: true
  r_idx: 2
  r_shift: 3
4043:
- l_pos: false
  l_idx: 0
  r_pos: true
  r_idx: 0
  r_shift: 6
- l_pos: true
  l_idx: 0
  r_pos: true
  r_idx: 1
  r_shift: 2
- l_pos: false
  l_idx: 0
  r_pos: true
  r_idx: 2
  r_shift: 2
- l_pos: false
  l_idx: 0
  r_pos: true
  r_idx: 3
  r_shift: 2
4045:
- l_pos: true
  l_idx: 0
  r_pos: true
  r_idx: 0
  r_shift: 1
- l_pos: false
  l_idx: 1
  r_pos: true
  r_idx: 0
  r_shift: 8
- l_pos: false
  l_idx: 1
  r_pos: true
  r_idx: 2
  r_shift: 4
4047:
- l_pos: false
  l_idx: 0
  r_pos: true
  r_idx: 0
  r_shift: 6
- l_pos: true
  l_idx: 0
  r_pos: true
  r_idx: 1
  r_shift: 2
- l_pos: false
  l_idx: 0
  r_pos: true
  r_idx: 2
  r_shift: 4
4049:
- l_pos: false
  l_idx: 0
  r_pos: true
  r_idx: 0
  r_shift: 6
- l_pos: true
  l_idx: 0
  r_pos: true
  r_idx: 1
  r_shift: 2
- l_pos: true
  l_idx: 0
  r_pos: true
  r_idx: 2
  r_shift: 4
4051:
- l_pos: true
  l_idx: 0
  r_pos: true
  r_idx: 0
  r_shift: 1
- l_pos: false
  l_idx: 1
  r_pos: true
  r_idx: 0
  r_shift: 8
- l_pos: true
  l_idx: 1
  r_pos: true
  r_idx: 2
  r_shift: 4
4053:
- l_pos: false
  l_idx: 0
  r_pos: true
  r_idx: 0
  r_shift: 6
- l_pos: true
  l_idx: 0
  r_pos: true
  r_idx: 1
  r_shift: 2
- l_pos: true
  l_idx: 0
  r_pos: true
  r_idx: 2
  r_shift: 2
- l_pos: true
  l_idx: 0
  r_pos: true
  r_idx: 3
  r_shift: 2
4055:
- l_pos: false
  l_idx: 0
  r_pos: true
  r_idx: 0
  r_shift: 7
- l_pos: false
  l_idx: 0
  r_pos: true
  r_idx: 1
  r_shift: 2
- l_pos: false
  l_idx: 0
  r_pos: true
  r_idx: 2
  r_shift: 3
4057:
- l_pos: false
  l_idx: 0
  r_pos: true
  r_idx: 0
  r_shift: 7
- l_pos: false
  l_idx: 0
  r_pos: true
  r_idx: 1
  r_shift: 2
- l_pos: true
  l_idx: 0
  r_pos: true
  r_idx: 2
  r_shift: 3
4059:
- l_pos: false
  l_idx: 0
  r_pos: true
  r_idx: 0
  r_shift: 7
- l_pos: false
  l_idx: 0
  r_pos: true
  r_idx: 1
  r_shift: 3
- l_pos: false
  l_idx: 0
  r_pos: true
  r_idx: 2
  r_shift: 2
4061:
- l_pos: false
  l_idx: 0
  r_pos: true
  r_idx: 0
  r_shift: 7
- l_pos: false
  l_idx: 0
  r_pos: true
  r_idx: 1
  r_shift: 3
- l_pos: true
  l_idx: 0
  r_pos: true
  r_idx: 2
  r_shift: 2
4063:
- l_pos: false
  l_idx: 0
  r_pos: true
  r_idx: 0
  r_shift: 7
- l_pos: false
  l_idx: 0
  r_pos: true
  r_idx: 1
  r_shift: 5
4065:
- l_pos: false
  l_idx: 0
  r_pos: true
  r_idx: 0
  r_shift: 7
- l_pos: true
  l_idx: 0
  r_pos: true
  r_idx: 1
  r_shift: 5
4067:
- l_pos: false
  l_idx: 0
  r_pos: true
  r_idx: 0
  r_shift: 7
- l_pos: true
  l_idx: 0
  r_pos: true
  r_idx: 1
  r_shift: 3
- l_pos: false
  l_idx: 0
  r_pos: true
  r_idx: 2
  r_shift: 2
4069:
- l_pos: false
  l_idx: 0
  r_pos: true
  r_idx: 0
  r_shift: 7
- l_pos: true
  l_idx: 0
  r_pos: true
  r_idx: 1
  r_shift: 3
- l_pos: true
  l_idx: 0
  r_pos: true
  r_idx: 2
  r_shift: 2
4071:
- l_pos: false
  l_idx: 0
  r_pos: true
  r_idx: 0
  r_shift: 7
- l_pos: true
  l_idx: 0
  r_pos: true
  r_idx: 1
  r_shift: 2
- l_pos: false
  l_idx: 0
  r_pos: true
  r_idx: 2
  r_shift: 3
4073:
- l_pos: false
  l_idx: 0
  r_pos: true
  r_idx: 0
  r_shift: 7
- l_pos: true
  l_idx: 0
  r_pos: true
  r_idx: 1
  r_shift: 2
- l_pos: true
  l_idx: 0
  r_pos: true
  r_idx: 2
  r_shift: 3
4075:
- l_pos: false
  l_idx: 0
  r_pos: true
  r_idx: 0
  r_shift: 8
- l_pos: false
  l_idx: 0
  r_pos: true
  r_idx: 1
  r_shift: 2
- l_pos: false
  l_idx: 0
  r_pos: true
  r_idx: 2
  r_shift: 2
4077:
- l_pos: false
  l_idx: 0
  r_pos: true
  r_idx: 0
  r_shift: 8
- l_pos: false
  l_idx: 0
  r_pos: true
  r_idx: 1
  r_shift: 2
- l_pos: true
  l_idx: 0
  r_pos: true
  r_idx: 2
  r_shift: 2
4079:
- l_pos: false
  l_idx: 0
  r_pos: true
  r_idx: 0
  r_shift: 8
- l_pos: false
  l_idx: 0
  r_pos: true
  r_idx: 1
  r_shift: 4
4081:
- l_pos: false
  l_idx: 0
  r_pos: true
  r_idx: 0
  r_shift: 8
- l_pos: true
  l_idx: 0
  r_pos: true
  r_idx: 1
  r_shift: 4
4083:
- l_pos: false
  l_idx: 0
  r_pos: true
  r_idx: 0
  r_shift: 8
- l_pos: true
  l_idx: 0
  r_pos: true
  r_idx: 1
  r_shift: 2
- l_pos: false
  l_idx: 0
  r_pos: true
  r_idx: 2
  r_shift: 2
4085:
- l_pos: false
  l_idx: 0
  r_pos: true
  r_idx: 0
  r_shift: 8
- l_pos: true
  l_idx: 0
  r_pos: true
  r_idx: 1
  r_shift: 2
- l_pos: true
  l_idx: 0
  r_pos: true
  r_idx: 2
  r_shift: 2
4087:
- l_pos: false
  l_idx: 0
  r_pos: true
  r_idx: 0
  r_shift: 9
- l_pos: false
  l_idx: 0
  r_pos: true
  r_idx: 1
  r_shift: 3
4089:
- l_pos: false
  l_idx: 0
  r_pos: true
  r_idx: 0
  r_shift: 9
- l_pos: true
  l_idx: 0
  r_pos: true
  r_idx: 1
  r_shift: 3
4091:
- l_pos: false
  l_idx: 0
  r_pos: true
  r_idx: 0
  r_shift: 10
- l_pos: false
  l_idx: 0
  r_pos: true
  r_idx: 1
  r_shift: 2
4093:
- l_pos: false
  l_idx: 0
  r_pos: true
  r_idx: 0
  r_shift: 10
- l_pos: true
  l_idx: 0
  r_pos: true
  r_idx: 1
  r_shift: 2
4095:
- l_pos: false
  l_idx: 0
  r_pos: true
  r_idx: 0
  r_shift: 12
".

Import ListNotations.
(** assets/asc-12.yaml: the literals one after the other, eight in a group *)
Definition texts_0 : list string := [text_1; text_2; text_3; text_4; text_5; text_6; text_7; text_8].
Definition texts_1 : list string := [text_9; text_10; text_11; text_12; text_13; text_14; text_15; text_16].
Definition texts_2 : list string := [text_17; text_18; text_19; text_20; text_21; text_22; text_23; text_24].
Definition texts_3 : list string := [text_25; text_26; text_27; text_28; text_29; text_30; text_31; text_32].
Definition texts_4 : list string := [text_33; text_34; text_35; text_36; text_37; text_38; text_39; text_40].
Definition texts_5 : list string := [text_41; text_42; text_43; text_44; text_45; text_46; text_47; text_48].
Definition texts_6 : list string := [text_49; text_50; text_51; text_52; text_53; text_54; text_55; text_56].
Definition texts_7 : list string := [text_57; text_58; text_59; text_60; text_61; text_62; text_63; text_64].
Definition asc_12_yaml : string := String.concat "" (text_0 :: List.concat [texts_0; texts_1; texts_2; texts_3; texts_4; texts_5; texts_6; texts_7])%list.
