(** Generated by tools/gen_stddb.py from net/echonet/database_mra_objects.go:
    the calls of initObjects (L36-L1247) in file order, duplicates kept.
    Simplified: names, data types and data sizes are left out, the constructor
    newStandardProperty (L15-L33) ignores the type and the size. *)

From Verif Require Import Go.
Local Open Scope Z_scope.

(** The access rule strings of the table: "required", "optional",
    "notApplicable", "required_c", "required_o"; no other string occurs. *)
Inductive rule : Set := RRequired | ROptional | RNotApplicable | RRequiredC | RRequiredO.

(** One newStandardProperty call (L15): code, get rule, set rule, announce rule. *)
Record mra_entry : Set := PE { pe_code : Z; pe_get : rule; pe_set : rule; pe_anno : rule }.

(** One class (newStandardObject L7 and its AddProperty calls). *)
Record mra_class : Set := CL { cl_grp : Z; cl_cls : Z; cl_entries : list mra_entry }.

(** database_mra_objects.go L36-L1247. *)
Definition mra_table : list mra_class :=
  [
  (* L40-L71 Super class *)
  CL 0 0
    [PE 128 RRequired ROptional RRequired;
     PE 129 RRequired RRequired RRequired;
     PE 129 RRequired RRequired RRequired;
     PE 130 RRequired RNotApplicable ROptional;
     PE 131 ROptional ROptional ROptional;
     PE 131 ROptional RNotApplicable ROptional;
     PE 132 ROptional RNotApplicable ROptional;
     PE 133 ROptional RNotApplicable ROptional;
     PE 134 ROptional RNotApplicable ROptional;
     PE 135 ROptional ROptional ROptional;
     PE 136 RRequired RNotApplicable RRequired;
     PE 137 ROptional RNotApplicable ROptional;
     PE 138 RRequired RNotApplicable ROptional;
     PE 138 RRequired RNotApplicable ROptional;
     PE 139 ROptional RNotApplicable ROptional;
     PE 140 ROptional RNotApplicable ROptional;
     PE 141 ROptional RNotApplicable ROptional;
     PE 142 ROptional RNotApplicable ROptional;
     PE 143 ROptional ROptional ROptional;
     PE 147 ROptional ROptional ROptional;
     PE 147 ROptional ROptional RRequired;
     PE 147 ROptional ROptional ROptional;
     PE 147 ROptional ROptional ROptional;
     PE 151 ROptional ROptional ROptional;
     PE 152 ROptional ROptional ROptional;
     PE 153 ROptional ROptional ROptional;
     PE 154 ROptional RNotApplicable ROptional;
     PE 157 RRequired RNotApplicable ROptional;
     PE 158 RRequired RNotApplicable ROptional;
     PE 159 RRequired RNotApplicable ROptional];
  (* L74-L94 Node profile *)
  CL 14 240
    [PE 128 RRequired RNotApplicable RRequired;
     PE 130 RRequired RNotApplicable ROptional;
     PE 131 RRequired RNotApplicable ROptional;
     PE 136 ROptional RNotApplicable ROptional;
     PE 137 ROptional RNotApplicable ROptional;
     PE 138 RRequired RNotApplicable ROptional;
     PE 139 ROptional RNotApplicable ROptional;
     PE 140 ROptional RNotApplicable ROptional;
     PE 141 ROptional RNotApplicable ROptional;
     PE 142 ROptional RNotApplicable ROptional;
     PE 157 RRequired RNotApplicable ROptional;
     PE 158 RRequired RNotApplicable ROptional;
     PE 159 RRequired RNotApplicable ROptional;
     PE 191 ROptional ROptional ROptional;
     PE 211 RRequired RNotApplicable ROptional;
     PE 212 RRequired RNotApplicable ROptional;
     PE 213 ROptional RNotApplicable RRequired;
     PE 214 RRequired RNotApplicable ROptional;
     PE 215 RRequired RNotApplicable ROptional];
  (* L97-L108 Hybrid water heater *)
  CL 2 166
    [PE 176 ROptional ROptional RRequired;
     PE 178 ROptional RNotApplicable RRequired;
     PE 179 ROptional RNotApplicable RRequired;
     PE 182 ROptional ROptional ROptional;
     PE 183 ROptional ROptional ROptional;
     PE 184 RRequired RRequired RRequired;
     PE 185 ROptional ROptional ROptional;
     PE 195 ROptional RNotApplicable RRequired;
     PE 225 ROptional RNotApplicable ROptional;
     PE 226 ROptional RNotApplicable ROptional];
  (* L111-L113 Switch  supporting JEM-A/HA terminals  *)
  CL 5 253
    [PE 224 ROptional ROptional ROptional];
  (* L116-L145 Instantaneous water heater *)
  CL 2 114
    [PE 144 ROptional ROptional ROptional;
     PE 145 ROptional ROptional ROptional;
     PE 146 ROptional ROptional ROptional;
     PE 208 RRequired RNotApplicable ROptional;
     PE 209 ROptional ROptional ROptional;
     PE 210 ROptional ROptional ROptional;
     PE 212 ROptional ROptional ROptional;
     PE 213 ROptional RNotApplicable ROptional;
     PE 214 ROptional ROptional ROptional;
     PE 215 ROptional ROptional ROptional;
     PE 218 ROptional ROptional ROptional;
     PE 219 ROptional RNotApplicable ROptional;
     PE 225 ROptional ROptional ROptional;
     PE 226 RRequired RNotApplicable ROptional;
     PE 227 RRequiredO RRequiredO ROptional;
     PE 228 ROptional ROptional ROptional;
     PE 229 ROptional ROptional ROptional;
     PE 230 ROptional ROptional ROptional;
     PE 231 ROptional ROptional ROptional;
     PE 232 ROptional ROptional ROptional;
     PE 233 ROptional ROptional ROptional;
     PE 233 ROptional RNotApplicable ROptional;
     PE 234 ROptional RNotApplicable ROptional;
     PE 235 ROptional RNotApplicable ROptional;
     PE 236 ROptional ROptional ROptional;
     PE 237 ROptional ROptional ROptional;
     PE 238 ROptional ROptional ROptional;
     PE 239 ROptional RNotApplicable RRequired];
  (* L148-L172 Commercial showcase *)
  CL 3 206
    [PE 176 RRequired RRequired RRequired;
     PE 176 RRequired RRequired RRequired;
     PE 189 ROptional RNotApplicable ROptional;
     PE 202 ROptional ROptional ROptional;
     PE 202 RRequired ROptional ROptional;
     PE 208 RRequired RNotApplicable ROptional;
     PE 209 RRequired RNotApplicable ROptional;
     PE 210 RRequired RNotApplicable ROptional;
     PE 211 RRequired RNotApplicable ROptional;
     PE 212 RRequired RNotApplicable ROptional;
     PE 224 RRequired ROptional RRequired;
     PE 225 ROptional ROptional RRequired;
     PE 226 ROptional ROptional ROptional;
     PE 227 RRequired RNotApplicable ROptional;
     PE 228 ROptional RNotApplicable ROptional;
     PE 229 ROptional RNotApplicable ROptional;
     PE 230 ROptional RNotApplicable ROptional;
     PE 231 RRequired RNotApplicable ROptional;
     PE 235 ROptional RNotApplicable ROptional;
     PE 236 ROptional RNotApplicable ROptional;
     PE 237 ROptional ROptional ROptional;
     PE 238 ROptional ROptional ROptional;
     PE 239 RRequired RRequired ROptional];
  (* L175-L178 Illuminance sensor *)
  CL 0 208
    [PE 224 RRequiredC RNotApplicable ROptional;
     PE 225 RRequiredC RNotApplicable ROptional];
  (* L181-L188 Television *)
  CL 6 2
    [PE 128 RRequired RRequiredO RRequired;
     PE 176 ROptional ROptional ROptional;
     PE 177 RRequiredO RNotApplicable RRequired;
     PE 178 RRequiredO RNotApplicable ROptional;
     PE 179 ROptional RRequired ROptional;
     PE 180 RRequiredO RNotApplicable ROptional];
  (* L191-L252 EV charger and discharger *)
  CL 2 126
    [PE 137 RRequired RNotApplicable ROptional;
     PE 140 RRequired RNotApplicable ROptional;
     PE 192 RRequired RNotApplicable ROptional;
     PE 193 RRequiredC RNotApplicable ROptional;
     PE 193 ROptional RNotApplicable ROptional;
     PE 194 RRequired RNotApplicable ROptional;
     PE 195 RRequiredC RNotApplicable ROptional;
     PE 195 ROptional RNotApplicable ROptional;
     PE 196 RRequired RNotApplicable ROptional;
     PE 197 RRequired RNotApplicable ROptional;
     PE 198 RRequired RNotApplicable ROptional;
     PE 199 RRequired RNotApplicable RRequired;
     PE 199 RRequired RNotApplicable RRequired;
     PE 199 RRequired RNotApplicable RRequired;
     PE 200 RRequired RNotApplicable ROptional;
     PE 201 RRequired RNotApplicable ROptional;
     PE 202 RRequired RNotApplicable ROptional;
     PE 203 RRequired RNotApplicable ROptional;
     PE 204 RRequired RNotApplicable ROptional;
     PE 205 RNotApplicable RRequired RNotApplicable;
     PE 206 RRequired RNotApplicable ROptional;
     PE 207 RRequired RNotApplicable ROptional;
     PE 208 RRequired RNotApplicable ROptional;
     PE 209 RRequiredC RNotApplicable ROptional;
     PE 209 ROptional RNotApplicable ROptional;
     PE 210 ROptional RNotApplicable ROptional;
     PE 211 ROptional RNotApplicable ROptional;
     PE 212 ROptional RNotApplicable ROptional;
     PE 213 ROptional RNotApplicable ROptional;
     PE 214 ROptional RNotApplicable ROptional;
     PE 215 RNotApplicable ROptional RNotApplicable;
     PE 216 ROptional RNotApplicable ROptional;
     PE 217 RNotApplicable ROptional RNotApplicable;
     PE 218 RRequired RRequired RRequired;
     PE 218 RRequired RRequired RRequired;
     PE 218 RRequired RRequired RRequired;
     PE 218 RRequired RRequired RRequired;
     PE 219 ROptional RNotApplicable ROptional;
     PE 220 RRequired ROptional RRequired;
     PE 220 RRequired ROptional RRequired;
     PE 221 RRequired ROptional RRequired;
     PE 221 RRequired ROptional RRequired;
     PE 222 ROptional ROptional ROptional;
     PE 223 ROptional ROptional ROptional;
     PE 224 ROptional ROptional ROptional;
     PE 225 ROptional RNotApplicable RRequired;
     PE 226 RRequired RNotApplicable ROptional;
     PE 227 RRequiredC RNotApplicable ROptional;
     PE 227 ROptional RNotApplicable ROptional;
     PE 228 RRequired RNotApplicable ROptional;
     PE 229 ROptional RNotApplicable RRequired;
     PE 230 RRequired RNotApplicable ROptional;
     PE 231 ROptional ROptional ROptional;
     PE 233 ROptional ROptional ROptional;
     PE 234 ROptional ROptional ROptional;
     PE 235 ROptional ROptional ROptional;
     PE 236 ROptional ROptional ROptional;
     PE 237 ROptional ROptional ROptional;
     PE 238 ROptional ROptional ROptional;
     PE 239 ROptional RNotApplicable ROptional];
  (* L255-L264 Package-type commercial air conditioner  outdoor unit  *)
  CL 1 87
    [PE 171 ROptional RNotApplicable ROptional;
     PE 184 ROptional RNotApplicable ROptional;
     PE 190 ROptional RNotApplicable ROptional;
     PE 202 RRequired RNotApplicable ROptional;
     PE 219 RRequired RNotApplicable ROptional;
     PE 221 RRequired RNotApplicable ROptional;
     PE 222 RRequired RRequired ROptional;
     PE 223 ROptional RNotApplicable ROptional];
  (* L267-L269 Humidity sensor *)
  CL 0 18
    [PE 224 RRequired RNotApplicable ROptional];
  (* L272-L275 Mono functional lighting *)
  CL 2 145
    [PE 128 RRequired RRequired RRequired;
     PE 176 ROptional ROptional ROptional];
  (* L278-L335 Power distribution board metering *)
  CL 2 135
    [PE 176 ROptional RNotApplicable ROptional;
     PE 177 ROptional RNotApplicable ROptional;
     PE 178 ROptional ROptional ROptional;
     PE 179 ROptional RNotApplicable ROptional;
     PE 180 ROptional ROptional ROptional;
     PE 181 ROptional RNotApplicable ROptional;
     PE 182 ROptional ROptional ROptional;
     PE 183 ROptional RNotApplicable ROptional;
     PE 184 ROptional RNotApplicable ROptional;
     PE 185 ROptional ROptional ROptional;
     PE 186 ROptional RNotApplicable ROptional;
     PE 187 ROptional ROptional ROptional;
     PE 188 ROptional RNotApplicable ROptional;
     PE 189 ROptional ROptional ROptional;
     PE 190 ROptional RNotApplicable ROptional;
     PE 192 RRequired RNotApplicable ROptional;
     PE 193 RRequired RNotApplicable ROptional;
     PE 194 RRequired RNotApplicable ROptional;
     PE 195 ROptional RNotApplicable ROptional;
     PE 196 ROptional RNotApplicable ROptional;
     PE 197 ROptional ROptional ROptional;
     PE 198 ROptional RNotApplicable ROptional;
     PE 199 ROptional RNotApplicable ROptional;
     PE 200 ROptional RNotApplicable ROptional;
     PE 208 ROptional RNotApplicable ROptional;
     PE 209 ROptional RNotApplicable ROptional;
     PE 210 ROptional RNotApplicable ROptional;
     PE 211 ROptional RNotApplicable ROptional;
     PE 212 ROptional RNotApplicable ROptional;
     PE 213 ROptional RNotApplicable ROptional;
     PE 214 ROptional RNotApplicable ROptional;
     PE 215 ROptional RNotApplicable ROptional;
     PE 216 ROptional RNotApplicable ROptional;
     PE 217 ROptional RNotApplicable ROptional;
     PE 218 ROptional RNotApplicable ROptional;
     PE 219 ROptional RNotApplicable ROptional;
     PE 220 ROptional RNotApplicable ROptional;
     PE 221 ROptional RNotApplicable ROptional;
     PE 222 ROptional RNotApplicable ROptional;
     PE 223 ROptional RNotApplicable ROptional;
     PE 224 ROptional RNotApplicable ROptional;
     PE 225 ROptional RNotApplicable ROptional;
     PE 226 ROptional RNotApplicable ROptional;
     PE 227 ROptional RNotApplicable ROptional;
     PE 228 ROptional RNotApplicable ROptional;
     PE 229 ROptional RNotApplicable ROptional;
     PE 230 ROptional RNotApplicable ROptional;
     PE 231 ROptional RNotApplicable ROptional;
     PE 232 ROptional RNotApplicable ROptional;
     PE 233 ROptional RNotApplicable ROptional;
     PE 234 ROptional RNotApplicable ROptional;
     PE 235 ROptional RNotApplicable ROptional;
     PE 236 ROptional RNotApplicable ROptional;
     PE 237 ROptional RNotApplicable ROptional;
     PE 238 ROptional RNotApplicable ROptional;
     PE 239 ROptional RNotApplicable ROptional];
  (* L338-L390 Electric water heater *)
  CL 2 107
    [PE 144 ROptional ROptional ROptional;
     PE 145 ROptional ROptional ROptional;
     PE 176 RRequired RRequired ROptional;
     PE 176 RRequired RRequired RRequired;
     PE 177 ROptional ROptional ROptional;
     PE 178 ROptional RNotApplicable ROptional;
     PE 178 RRequired RNotApplicable RRequired;
     PE 179 ROptional ROptional ROptional;
     PE 180 ROptional ROptional ROptional;
     PE 181 ROptional ROptional ROptional;
     PE 182 ROptional ROptional ROptional;
     PE 192 ROptional ROptional ROptional;
     PE 192 RRequired RRequired ROptional;
     PE 193 ROptional RNotApplicable ROptional;
     PE 194 ROptional RNotApplicable RRequired;
     PE 195 RRequired RNotApplicable RRequired;
     PE 196 ROptional ROptional ROptional;
     PE 199 RRequired RRequired ROptional;
     PE 200 RRequired RNotApplicable ROptional;
     PE 201 RRequired RNotApplicable ROptional;
     PE 202 RRequired RRequired ROptional;
     PE 203 RRequired RNotApplicable ROptional;
     PE 204 RRequired RNotApplicable ROptional;
     PE 205 RRequired RRequired ROptional;
     PE 206 RRequired RNotApplicable ROptional;
     PE 207 RRequired RNotApplicable ROptional;
     PE 209 ROptional ROptional ROptional;
     PE 211 ROptional ROptional ROptional;
     PE 212 ROptional ROptional ROptional;
     PE 213 ROptional RNotApplicable ROptional;
     PE 214 ROptional ROptional ROptional;
     PE 215 ROptional ROptional ROptional;
     PE 216 ROptional RNotApplicable ROptional;
     PE 217 ROptional ROptional ROptional;
     PE 219 ROptional RNotApplicable ROptional;
     PE 220 ROptional RNotApplicable ROptional;
     PE 221 ROptional RNotApplicable ROptional;
     PE 224 ROptional ROptional ROptional;
     PE 225 ROptional RNotApplicable ROptional;
     PE 226 ROptional RNotApplicable ROptional;
     PE 227 RRequiredO RRequiredO ROptional;
     PE 228 ROptional ROptional ROptional;
     PE 229 ROptional ROptional ROptional;
     PE 229 ROptional ROptional ROptional;
     PE 230 ROptional ROptional ROptional;
     PE 230 ROptional ROptional ROptional;
     PE 231 ROptional ROptional ROptional;
     PE 232 ROptional ROptional ROptional;
     PE 233 ROptional RNotApplicable ROptional;
     PE 234 ROptional RNotApplicable RRequired;
     PE 238 ROptional ROptional ROptional];
  (* L393-L418 General lighting *)
  CL 2 144
    [PE 128 RRequired RRequired RRequired;
     PE 144 ROptional ROptional ROptional;
     PE 145 ROptional ROptional ROptional;
     PE 148 ROptional ROptional ROptional;
     PE 149 ROptional ROptional ROptional;
     PE 176 ROptional ROptional ROptional;
     PE 177 ROptional ROptional ROptional;
     PE 177 ROptional ROptional ROptional;
     PE 177 ROptional ROptional ROptional;
     PE 178 ROptional ROptional ROptional;
     PE 179 ROptional ROptional ROptional;
     PE 180 ROptional RNotApplicable ROptional;
     PE 181 ROptional RNotApplicable ROptional;
     PE 182 RRequired RRequired ROptional;
     PE 183 ROptional ROptional ROptional;
     PE 184 ROptional ROptional ROptional;
     PE 185 ROptional ROptional ROptional;
     PE 186 ROptional ROptional ROptional;
     PE 187 ROptional ROptional ROptional;
     PE 188 ROptional ROptional ROptional;
     PE 189 ROptional ROptional ROptional;
     PE 190 ROptional ROptional ROptional;
     PE 191 ROptional RNotApplicable ROptional;
     PE 192 ROptional ROptional ROptional];
  (* L421-L491 Storage battery *)
  CL 2 125
    [PE 131 ROptional RNotApplicable ROptional;
     PE 137 RRequired RNotApplicable ROptional;
     PE 140 RRequired RNotApplicable ROptional;
     PE 151 RRequired ROptional ROptional;
     PE 152 RRequired ROptional ROptional;
     PE 160 RRequired RNotApplicable ROptional;
     PE 161 RRequired RNotApplicable ROptional;
     PE 162 RRequired RNotApplicable ROptional;
     PE 163 RRequired RNotApplicable ROptional;
     PE 164 RRequired RNotApplicable ROptional;
     PE 165 RRequired RNotApplicable ROptional;
     PE 166 ROptional ROptional ROptional;
     PE 167 ROptional ROptional ROptional;
     PE 168 RRequired RNotApplicable ROptional;
     PE 169 RRequired RNotApplicable ROptional;
     PE 170 RRequired RRequired RRequired;
     PE 171 RRequired RRequired RRequired;
     PE 193 RRequired ROptional RRequired;
     PE 194 RRequired ROptional RRequired;
     PE 199 ROptional RNotApplicable ROptional;
     PE 200 ROptional RNotApplicable ROptional;
     PE 200 RRequired RNotApplicable ROptional;
     PE 201 ROptional RNotApplicable ROptional;
     PE 201 RRequired RNotApplicable ROptional;
     PE 202 ROptional RNotApplicable ROptional;
     PE 203 ROptional RNotApplicable ROptional;
     PE 204 ROptional ROptional ROptional;
     PE 205 ROptional ROptional ROptional;
     PE 206 ROptional ROptional ROptional;
     PE 207 RRequired RNotApplicable RRequired;
     PE 207 RRequired RNotApplicable RRequired;
     PE 208 ROptional RNotApplicable ROptional;
     PE 209 ROptional RNotApplicable ROptional;
     PE 210 ROptional RNotApplicable ROptional;
     PE 211 ROptional RNotApplicable ROptional;
     PE 212 ROptional RNotApplicable ROptional;
     PE 213 ROptional RNotApplicable ROptional;
     PE 214 ROptional RNotApplicable ROptional;
     PE 215 RNotApplicable ROptional RNotApplicable;
     PE 216 ROptional RNotApplicable ROptional;
     PE 217 RNotApplicable ROptional RNotApplicable;
     PE 218 RRequired RRequired RRequired;
     PE 218 RRequired RRequired RRequired;
     PE 218 RRequired RRequired RRequired;
     PE 218 RRequired RRequired RRequired;
     PE 219 ROptional RNotApplicable ROptional;
     PE 219 RRequired RNotApplicable ROptional;
     PE 220 ROptional RNotApplicable ROptional;
     PE 221 ROptional RNotApplicable ROptional;
     PE 222 ROptional RNotApplicable ROptional;
     PE 223 ROptional RNotApplicable ROptional;
     PE 224 ROptional ROptional ROptional;
     PE 224 ROptional ROptional ROptional;
     PE 225 ROptional ROptional ROptional;
     PE 225 ROptional ROptional ROptional;
     PE 226 RRequiredC RNotApplicable ROptional;
     PE 227 RRequiredC RNotApplicable ROptional;
     PE 228 RRequiredC RNotApplicable ROptional;
     PE 229 ROptional RNotApplicable ROptional;
     PE 230 RRequired RNotApplicable ROptional;
     PE 231 ROptional ROptional ROptional;
     PE 232 ROptional ROptional ROptional;
     PE 233 ROptional ROptional ROptional;
     PE 234 ROptional ROptional ROptional;
     PE 235 ROptional ROptional ROptional;
     PE 236 ROptional ROptional ROptional;
     PE 237 ROptional ROptional ROptional;
     PE 238 ROptional ROptional ROptional;
     PE 239 ROptional RNotApplicable ROptional];
  (* L494-L503 Package-type commercial air conditioner  indoor unit   except those for facilities  *)
  CL 1 86
    [PE 128 RRequired RRequired RRequired;
     PE 172 RRequired RNotApplicable ROptional;
     PE 174 RRequired RNotApplicable ROptional;
     PE 176 RRequired RRequired RRequired;
     PE 179 RRequired RRequired RRequired;
     PE 187 ROptional RNotApplicable ROptional;
     PE 202 RRequired RNotApplicable ROptional;
     PE 219 ROptional RNotApplicable ROptional];
  (* L506-L516 Rice cooker *)
  CL 3 187
    [PE 144 ROptional ROptional ROptional;
     PE 145 ROptional ROptional ROptional;
     PE 146 ROptional ROptional ROptional;
     PE 176 ROptional RNotApplicable ROptional;
     PE 177 RRequired RNotApplicable ROptional;
     PE 178 RRequiredO RRequiredO ROptional;
     PE 225 ROptional ROptional ROptional;
     PE 229 ROptional RNotApplicable ROptional;
     PE 230 ROptional RNotApplicable ROptional];
  (* L519-L542 High-voltage smart electric energy meter *)
  CL 2 138
    [PE 193 RRequired RNotApplicable ROptional;
     PE 194 ROptional RNotApplicable ROptional;
     PE 195 RRequired RNotApplicable ROptional;
     PE 196 RRequired RNotApplicable ROptional;
     PE 197 RRequired RNotApplicable ROptional;
     PE 198 RRequired RNotApplicable ROptional;
     PE 199 ROptional RNotApplicable ROptional;
     PE 202 ROptional RNotApplicable ROptional;
     PE 203 ROptional RNotApplicable ROptional;
     PE 204 ROptional RNotApplicable ROptional;
     PE 205 ROptional RNotApplicable ROptional;
     PE 206 ROptional RNotApplicable ROptional;
     PE 211 RRequired RNotApplicable ROptional;
     PE 212 RRequired RNotApplicable ROptional;
     PE 224 RRequired RNotApplicable ROptional;
     PE 225 RRequired RRequired ROptional;
     PE 226 RRequired RNotApplicable ROptional;
     PE 227 RRequired RNotApplicable ROptional;
     PE 228 ROptional RNotApplicable ROptional;
     PE 229 RRequired RNotApplicable ROptional;
     PE 230 RRequired RNotApplicable ROptional;
     PE 231 RRequired RNotApplicable ROptional];
  (* L545-L555 Cooking heater *)
  CL 3 185
    [PE 150 ROptional ROptional ROptional;
     PE 161 ROptional ROptional ROptional;
     PE 162 ROptional ROptional ROptional;
     PE 177 RRequired RNotApplicable ROptional;
     PE 178 ROptional ROptional ROptional;
     PE 179 RNotApplicable RRequiredO ROptional;
     PE 224 ROptional ROptional ROptional;
     PE 227 ROptional ROptional ROptional;
     PE 231 ROptional ROptional ROptional];
  (* L558-L562 VOC sensor *)
  CL 0 29
    [PE 176 ROptional ROptional ROptional;
     PE 177 ROptional RNotApplicable RRequired;
     PE 224 RRequired RNotApplicable ROptional];
  (* L565-L589 Bathroom heater dryer *)
  CL 2 115
    [PE 144 ROptional ROptional ROptional;
     PE 145 ROptional ROptional ROptional;
     PE 146 ROptional ROptional ROptional;
     PE 148 ROptional ROptional ROptional;
     PE 149 ROptional ROptional ROptional;
     PE 150 ROptional ROptional ROptional;
     PE 176 RRequired RRequired ROptional;
     PE 176 RRequired RRequired ROptional;
     PE 177 ROptional ROptional ROptional;
     PE 178 RRequired RRequired ROptional;
     PE 178 ROptional ROptional ROptional;
     PE 179 ROptional ROptional ROptional;
     PE 180 RRequired RRequired ROptional;
     PE 181 ROptional ROptional ROptional;
     PE 182 ROptional ROptional ROptional;
     PE 183 ROptional ROptional ROptional;
     PE 186 ROptional RNotApplicable ROptional;
     PE 187 ROptional RNotApplicable ROptional;
     PE 194 ROptional ROptional ROptional;
     PE 207 ROptional ROptional ROptional;
     PE 224 ROptional RNotApplicable ROptional;
     PE 225 ROptional ROptional ROptional;
     PE 225 ROptional ROptional ROptional];
  (* L592-L600 Commercial show case outdoor unit *)
  CL 3 212
    [PE 170 ROptional RNotApplicable ROptional;
     PE 176 RRequired RRequired RRequired;
     PE 176 RRequired RRequired RRequired;
     PE 190 ROptional RNotApplicable ROptional;
     PE 202 ROptional ROptional ROptional;
     PE 202 RRequired ROptional ROptional;
     PE 226 ROptional ROptional ROptional];
  (* L603-L638 Frequency regulation *)
  CL 2 167
    [PE 140 RRequired RNotApplicable ROptional;
     PE 141 RRequired RNotApplicable ROptional;
     PE 192 RRequired ROptional ROptional;
     PE 193 RRequired RRequired ROptional;
     PE 194 RRequired RRequired ROptional;
     PE 195 RRequiredC RRequiredC ROptional;
     PE 196 RRequiredC RRequiredC ROptional;
     PE 197 ROptional ROptional ROptional;
     PE 198 ROptional ROptional ROptional;
     PE 199 ROptional ROptional ROptional;
     PE 208 RRequired RNotApplicable ROptional;
     PE 209 RRequired RNotApplicable ROptional;
     PE 210 RRequired RNotApplicable ROptional;
     PE 211 ROptional RNotApplicable ROptional;
     PE 212 RRequiredC RNotApplicable ROptional;
     PE 213 RRequired RNotApplicable RRequired;
     PE 214 RRequired RNotApplicable ROptional;
     PE 215 RRequired RNotApplicable ROptional;
     PE 216 RRequired RNotApplicable ROptional;
     PE 217 RRequired RNotApplicable ROptional;
     PE 218 RRequired RNotApplicable ROptional;
     PE 219 ROptional RNotApplicable ROptional;
     PE 220 RRequired RNotApplicable ROptional;
     PE 222 RRequired RNotApplicable ROptional;
     PE 223 ROptional RNotApplicable ROptional;
     PE 224 ROptional RNotApplicable ROptional;
     PE 225 ROptional RNotApplicable ROptional;
     PE 226 ROptional RNotApplicable ROptional;
     PE 227 ROptional RNotApplicable ROptional;
     PE 228 ROptional RNotApplicable ROptional;
     PE 229 ROptional RNotApplicable ROptional;
     PE 230 ROptional RNotApplicable ROptional;
     PE 231 ROptional RNotApplicable ROptional;
     PE 232 ROptional RNotApplicable ROptional];
  (* L641-L668 Fuel cell *)
  CL 2 124
    [PE 193 ROptional RNotApplicable ROptional;
     PE 194 ROptional RNotApplicable ROptional;
     PE 194 RRequired RNotApplicable ROptional;
     PE 195 ROptional RNotApplicable ROptional;
     PE 196 RRequired RNotApplicable ROptional;
     PE 197 RRequired RNotApplicable ROptional;
     PE 198 RNotApplicable ROptional RNotApplicable;
     PE 198 RNotApplicable ROptional RNotApplicable;
     PE 199 ROptional RNotApplicable ROptional;
     PE 200 ROptional RNotApplicable ROptional;
     PE 201 RNotApplicable ROptional RNotApplicable;
     PE 202 RNotApplicable ROptional ROptional;
     PE 202 ROptional ROptional ROptional;
     PE 203 ROptional RNotApplicable ROptional;
     PE 203 RRequired RNotApplicable RRequired;
     PE 204 ROptional RNotApplicable ROptional;
     PE 205 ROptional RNotApplicable ROptional;
     PE 205 ROptional RNotApplicable ROptional;
     PE 206 RNotApplicable ROptional RNotApplicable;
     PE 206 RNotApplicable ROptional RNotApplicable;
     PE 208 ROptional RNotApplicable ROptional;
     PE 208 RRequired RNotApplicable ROptional;
     PE 209 RRequired RRequired ROptional;
     PE 210 RRequired RRequired ROptional;
     PE 225 ROptional RNotApplicable ROptional;
     PE 226 ROptional RNotApplicable ROptional];
  (* L671-L675 Crime prevention sensor *)
  CL 0 2
    [PE 176 ROptional ROptional ROptional;
     PE 177 RRequired RNotApplicable RRequired;
     PE 191 RNotApplicable ROptional RNotApplicable];
  (* L678-L689 Water flowmeter *)
  CL 2 129
    [PE 208 ROptional ROptional ROptional;
     PE 209 ROptional ROptional ROptional;
     PE 224 RRequired RNotApplicable ROptional;
     PE 225 RRequired RNotApplicable ROptional;
     PE 226 ROptional RNotApplicable ROptional;
     PE 227 ROptional RNotApplicable RRequired;
     PE 228 ROptional RNotApplicable ROptional;
     PE 229 ROptional ROptional ROptional;
     PE 230 ROptional ROptional ROptional;
     PE 231 ROptional RNotApplicable ROptional];
  (* L692-L742 Home air conditioner *)
  CL 1 48
    [PE 128 RRequired RRequired RRequired;
     PE 143 RRequired RRequired RRequired;
     PE 144 ROptional ROptional ROptional;
     PE 145 ROptional ROptional ROptional;
     PE 146 ROptional ROptional ROptional;
     PE 148 ROptional ROptional ROptional;
     PE 149 ROptional ROptional ROptional;
     PE 150 ROptional ROptional ROptional;
     PE 160 ROptional ROptional ROptional;
     PE 160 RRequired RRequired RRequired;
     PE 161 ROptional ROptional ROptional;
     PE 163 ROptional ROptional ROptional;
     PE 164 ROptional ROptional ROptional;
     PE 165 ROptional ROptional ROptional;
     PE 170 ROptional RNotApplicable ROptional;
     PE 171 ROptional RNotApplicable ROptional;
     PE 176 RRequired RRequired RRequired;
     PE 177 ROptional ROptional ROptional;
     PE 178 ROptional ROptional ROptional;
     PE 179 RRequired RRequired ROptional;
     PE 180 ROptional ROptional ROptional;
     PE 181 ROptional ROptional ROptional;
     PE 182 ROptional ROptional ROptional;
     PE 183 ROptional ROptional ROptional;
     PE 184 ROptional RNotApplicable ROptional;
     PE 185 ROptional RNotApplicable ROptional;
     PE 186 ROptional RNotApplicable ROptional;
     PE 187 ROptional RNotApplicable ROptional;
     PE 187 RRequired RNotApplicable ROptional;
     PE 188 ROptional RNotApplicable ROptional;
     PE 189 ROptional RNotApplicable ROptional;
     PE 190 ROptional RNotApplicable ROptional;
     PE 191 ROptional ROptional ROptional;
     PE 192 ROptional ROptional ROptional;
     PE 193 ROptional ROptional ROptional;
     PE 194 ROptional ROptional ROptional;
     PE 196 ROptional ROptional ROptional;
     PE 198 ROptional RNotApplicable ROptional;
     PE 199 ROptional ROptional ROptional;
     PE 200 ROptional RNotApplicable ROptional;
     PE 201 ROptional ROptional ROptional;
     PE 202 ROptional RNotApplicable ROptional;
     PE 203 ROptional ROptional ROptional;
     PE 204 ROptional ROptional ROptional;
     PE 205 ROptional RNotApplicable ROptional;
     PE 206 RNotApplicable ROptional RNotApplicable;
     PE 206 ROptional ROptional ROptional;
     PE 207 ROptional ROptional ROptional;
     PE 208 RNotApplicable ROptional RNotApplicable];
  (* L745-L753 Electric energy sensor *)
  CL 0 34
    [PE 224 RRequired RNotApplicable ROptional;
     PE 225 ROptional RNotApplicable ROptional;
     PE 226 ROptional RNotApplicable ROptional;
     PE 227 ROptional RNotApplicable ROptional;
     PE 228 ROptional RNotApplicable ROptional;
     PE 228 ROptional RNotApplicable ROptional;
     PE 229 ROptional RNotApplicable ROptional];
  (* L756-L789 Washer and dryer *)
  CL 3 211
    [PE 144 ROptional ROptional ROptional;
     PE 145 ROptional ROptional ROptional;
     PE 146 ROptional ROptional ROptional;
     PE 176 ROptional RNotApplicable ROptional;
     PE 178 ROptional ROptional ROptional;
     PE 208 ROptional ROptional ROptional;
     PE 209 ROptional ROptional ROptional;
     PE 210 ROptional ROptional ROptional;
     PE 211 ROptional RNotApplicable ROptional;
     PE 212 ROptional RNotApplicable ROptional;
     PE 213 ROptional RNotApplicable ROptional;
     PE 214 ROptional ROptional ROptional;
     PE 215 ROptional ROptional ROptional;
     PE 216 ROptional ROptional ROptional;
     PE 219 ROptional RNotApplicable ROptional;
     PE 220 ROptional RNotApplicable ROptional;
     PE 223 ROptional RNotApplicable ROptional;
     PE 225 ROptional ROptional ROptional;
     PE 226 ROptional RNotApplicable ROptional;
     PE 227 ROptional ROptional ROptional;
     PE 228 ROptional ROptional ROptional;
     PE 229 ROptional ROptional ROptional;
     PE 230 ROptional ROptional ROptional;
     PE 231 ROptional ROptional ROptional;
     PE 232 ROptional ROptional ROptional;
     PE 233 ROptional ROptional ROptional;
     PE 234 ROptional ROptional ROptional;
     PE 235 ROptional ROptional ROptional;
     PE 236 ROptional ROptional ROptional;
     PE 237 ROptional RNotApplicable ROptional;
     PE 238 ROptional ROptional ROptional;
     PE 239 ROptional RNotApplicable ROptional];
  (* L792-L829 Bidirectional high voltage smart electric energy meter *)
  CL 2 143
    [PE 128 RRequired ROptional RRequired;
     PE 192 RRequiredC RNotApplicable ROptional;
     PE 193 RRequired RNotApplicable ROptional;
     PE 194 ROptional RNotApplicable ROptional;
     PE 195 RRequired RNotApplicable ROptional;
     PE 196 RRequired RNotApplicable ROptional;
     PE 197 RRequired RNotApplicable ROptional;
     PE 198 RRequired RNotApplicable ROptional;
     PE 199 ROptional RNotApplicable ROptional;
     PE 200 RRequired RNotApplicable ROptional;
     PE 202 ROptional RNotApplicable ROptional;
     PE 203 ROptional RNotApplicable ROptional;
     PE 204 ROptional RNotApplicable ROptional;
     PE 205 ROptional RNotApplicable ROptional;
     PE 206 ROptional RNotApplicable ROptional;
     PE 207 ROptional RNotApplicable ROptional;
     PE 208 RRequired RNotApplicable ROptional;
     PE 209 ROptional RNotApplicable ROptional;
     PE 211 RRequired RNotApplicable ROptional;
     PE 212 RRequired RNotApplicable ROptional;
     PE 213 ROptional RNotApplicable ROptional;
     PE 214 ROptional RNotApplicable ROptional;
     PE 224 RRequired RNotApplicable ROptional;
     PE 225 RRequired RRequired ROptional;
     PE 226 RRequired RNotApplicable ROptional;
     PE 227 RRequired RNotApplicable ROptional;
     PE 228 ROptional RNotApplicable ROptional;
     PE 229 RRequired RNotApplicable ROptional;
     PE 230 RRequired RNotApplicable ROptional;
     PE 231 RRequired RNotApplicable ROptional;
     PE 232 RRequired RNotApplicable ROptional;
     PE 234 RRequired RNotApplicable ROptional;
     PE 235 RRequired RNotApplicable ROptional;
     PE 237 RRequired RNotApplicable ROptional;
     PE 238 ROptional RNotApplicable ROptional;
     PE 239 RRequired RRequired ROptional];
  (* L832-L849 Electrically operated rain sliding door/shutter *)
  CL 2 99
    [PE 137 ROptional RNotApplicable RRequired;
     PE 144 ROptional ROptional RRequired;
     PE 208 ROptional ROptional ROptional;
     PE 209 ROptional ROptional ROptional;
     PE 210 ROptional ROptional ROptional;
     PE 224 RRequired RRequired RRequired;
     PE 225 ROptional ROptional ROptional;
     PE 226 ROptional ROptional ROptional;
     PE 227 ROptional ROptional ROptional;
     PE 229 ROptional ROptional ROptional;
     PE 232 ROptional RNotApplicable RRequired;
     PE 233 ROptional ROptional RRequired;
     PE 234 ROptional RNotApplicable RRequired;
     PE 237 ROptional ROptional ROptional;
     PE 238 ROptional ROptional ROptional;
     PE 239 ROptional ROptional ROptional];
  (* L852-L854 CO2 sensor *)
  CL 0 27
    [PE 224 RRequired RNotApplicable ROptional];
  (* L857-L861 Current sensor *)
  CL 0 35
    [PE 224 RRequiredC RNotApplicable ROptional;
     PE 225 ROptional RNotApplicable ROptional;
     PE 226 RRequiredC RNotApplicable ROptional];
  (* L864-L887 EV Charger *)
  CL 2 161
    [PE 197 RRequired RNotApplicable ROptional;
     PE 199 RRequired RNotApplicable RRequired;
     PE 199 RRequired RNotApplicable RRequired;
     PE 200 ROptional RNotApplicable ROptional;
     PE 202 ROptional RNotApplicable ROptional;
     PE 204 RRequired RNotApplicable ROptional;
     PE 204 RRequired RNotApplicable ROptional;
     PE 205 RNotApplicable RRequired ROptional;
     PE 206 RRequired RNotApplicable ROptional;
     PE 207 RRequired RNotApplicable ROptional;
     PE 208 RRequired RNotApplicable ROptional;
     PE 210 ROptional RNotApplicable ROptional;
     PE 211 ROptional RNotApplicable ROptional;
     PE 216 ROptional RNotApplicable ROptional;
     PE 217 RNotApplicable ROptional RNotApplicable;
     PE 218 RRequired RRequired RRequired;
     PE 226 RRequired RNotApplicable ROptional;
     PE 228 RRequired RNotApplicable ROptional;
     PE 230 RRequired RNotApplicable ROptional;
     PE 231 ROptional ROptional ROptional;
     PE 235 ROptional ROptional ROptional;
     PE 237 ROptional ROptional ROptional];
  (* L890-L894 Watt-hour meter *)
  CL 2 128
    [PE 224 RRequired RNotApplicable ROptional;
     PE 226 RRequired RNotApplicable ROptional;
     PE 227 ROptional RNotApplicable ROptional];
  (* L897-L900 Emergency button *)
  CL 0 3
    [PE 177 RRequired RNotApplicable RRequired;
     PE 191 RNotApplicable ROptional RNotApplicable];
  (* L903-L936 Household solar power generation *)
  CL 2 121
    [PE 131 RRequired RNotApplicable ROptional;
     PE 137 RRequired RNotApplicable ROptional;
     PE 140 RRequired RNotApplicable ROptional;
     PE 151 RRequiredC ROptional ROptional;
     PE 152 RRequiredC ROptional ROptional;
     PE 160 RRequiredC RRequiredC ROptional;
     PE 161 RRequiredC RRequiredC ROptional;
     PE 162 RRequiredC ROptional ROptional;
     PE 176 RRequiredC RNotApplicable ROptional;
     PE 177 RRequiredC RNotApplicable RRequired;
     PE 178 RRequiredC RNotApplicable ROptional;
     PE 179 ROptional RNotApplicable ROptional;
     PE 180 RRequiredC RNotApplicable ROptional;
     PE 192 ROptional RNotApplicable ROptional;
     PE 193 RRequired RRequired ROptional;
     PE 194 RRequired RNotApplicable ROptional;
     PE 195 RRequiredC RNotApplicable ROptional;
     PE 196 RRequiredC RNotApplicable ROptional;
     PE 208 ROptional RNotApplicable ROptional;
     PE 208 RRequired RNotApplicable ROptional;
     PE 209 RRequired RNotApplicable ROptional;
     PE 224 RRequired RNotApplicable ROptional;
     PE 225 RRequired RNotApplicable ROptional;
     PE 226 RNotApplicable ROptional RNotApplicable;
     PE 227 ROptional RNotApplicable ROptional;
     PE 228 RNotApplicable ROptional RNotApplicable;
     PE 229 ROptional ROptional ROptional;
     PE 230 ROptional ROptional ROptional;
     PE 231 ROptional ROptional ROptional;
     PE 232 ROptional ROptional ROptional;
     PE 232 RRequired ROptional ROptional;
     PE 233 ROptional ROptional ROptional];
  (* L939-L960 Floor heater *)
  CL 2 123
    [PE 128 RRequired RRequired RRequired;
     PE 144 ROptional ROptional ROptional;
     PE 145 ROptional ROptional ROptional;
     PE 146 ROptional ROptional ROptional;
     PE 148 ROptional ROptional ROptional;
     PE 149 ROptional ROptional ROptional;
     PE 150 ROptional ROptional ROptional;
     PE 209 ROptional RNotApplicable RRequired;
     PE 224 RRequiredC RRequiredC ROptional;
     PE 225 RRequiredC RRequiredC ROptional;
     PE 226 ROptional RNotApplicable ROptional;
     PE 227 ROptional RNotApplicable ROptional;
     PE 227 ROptional RNotApplicable ROptional;
     PE 228 ROptional ROptional ROptional;
     PE 229 ROptional ROptional ROptional;
     PE 230 ROptional ROptional ROptional;
     PE 231 ROptional ROptional ROptional;
     PE 232 ROptional ROptional ROptional;
     PE 233 ROptional RNotApplicable ROptional;
     PE 234 ROptional RNotApplicable ROptional];
  (* L963-L966 Bath heating status sensor *)
  CL 0 22
    [PE 176 ROptional ROptional ROptional;
     PE 177 RRequired RNotApplicable RRequired];
  (* L969-L989 Cold or hot water heat source equipment *)
  CL 2 122
    [PE 144 ROptional ROptional ROptional;
     PE 145 ROptional ROptional ROptional;
     PE 146 ROptional ROptional ROptional;
     PE 148 ROptional ROptional ROptional;
     PE 149 ROptional ROptional ROptional;
     PE 150 ROptional ROptional ROptional;
     PE 209 ROptional ROptional RRequired;
     PE 210 ROptional ROptional RRequired;
     PE 224 ROptional ROptional ROptional;
     PE 225 RRequiredC RRequiredC ROptional;
     PE 226 RRequiredC RRequiredC ROptional;
     PE 227 ROptional RNotApplicable ROptional;
     PE 228 ROptional RNotApplicable ROptional;
     PE 229 ROptional ROptional ROptional;
     PE 230 ROptional ROptional ROptional;
     PE 231 ROptional ROptional ROptional;
     PE 232 ROptional ROptional ROptional;
     PE 233 ROptional RNotApplicable ROptional;
     PE 234 ROptional RNotApplicable ROptional];
  (* L992-L1008 Smart electric energy meter for sub-metering *)
  CL 2 141
    [PE 211 ROptional RNotApplicable ROptional;
     PE 212 RRequired RNotApplicable ROptional;
     PE 215 RRequired RNotApplicable ROptional;
     PE 216 ROptional RNotApplicable ROptional;
     PE 217 ROptional RNotApplicable ROptional;
     PE 224 RRequired RRequired ROptional;
     PE 225 RRequired RNotApplicable ROptional;
     PE 226 RRequired RNotApplicable ROptional;
     PE 227 RRequired RNotApplicable ROptional;
     PE 228 RRequired RNotApplicable ROptional;
     PE 231 RRequired RNotApplicable ROptional;
     PE 232 RRequired RNotApplicable ROptional;
     PE 233 ROptional RNotApplicable ROptional;
     PE 234 RRequired RNotApplicable ROptional;
     PE 235 RRequired RNotApplicable ROptional];
  (* L1011-L1030 Electrically operated blind/shade *)
  CL 2 96
    [PE 137 ROptional RNotApplicable RRequired;
     PE 144 ROptional ROptional RRequired;
     PE 194 ROptional RNotApplicable RRequired;
     PE 195 ROptional RNotApplicable RRequired;
     PE 208 ROptional ROptional ROptional;
     PE 209 ROptional ROptional ROptional;
     PE 210 ROptional ROptional ROptional;
     PE 212 ROptional ROptional RRequired;
     PE 224 RRequired RRequired RRequired;
     PE 225 ROptional ROptional ROptional;
     PE 226 ROptional ROptional ROptional;
     PE 227 ROptional ROptional ROptional;
     PE 229 ROptional ROptional ROptional;
     PE 232 ROptional RNotApplicable RRequired;
     PE 233 ROptional ROptional RRequired;
     PE 234 ROptional RNotApplicable RRequired;
     PE 238 ROptional ROptional ROptional;
     PE 239 ROptional ROptional ROptional];
  (* L1033-L1037 Lighting system *)
  CL 2 163
    [PE 176 ROptional ROptional ROptional;
     PE 192 RRequired RRequired ROptional;
     PE 193 RRequired RNotApplicable ROptional];
  (* L1040-L1044 Ventilation fan *)
  CL 1 51
    [PE 128 RRequired RRequired RRequired;
     PE 160 ROptional ROptional ROptional;
     PE 191 ROptional ROptional ROptional];
  (* L1047-L1068 distributed generator's electric energy meter *)
  CL 2 142
    [PE 208 RRequired RNotApplicable ROptional;
     PE 209 RRequired RNotApplicable ROptional;
     PE 210 RRequired RNotApplicable ROptional;
     PE 211 RRequired RNotApplicable ROptional;
     PE 212 RRequired RNotApplicable ROptional;
     PE 213 RRequiredC RRequired ROptional;
     PE 214 ROptional RNotApplicable ROptional;
     PE 218 RRequiredC ROptional ROptional;
     PE 219 RRequired RNotApplicable ROptional;
     PE 224 RRequiredC RNotApplicable ROptional;
     PE 225 RRequiredC RNotApplicable ROptional;
     PE 226 RRequiredC RNotApplicable ROptional;
     PE 227 RRequiredC RNotApplicable ROptional;
     PE 228 ROptional RNotApplicable ROptional;
     PE 229 ROptional RNotApplicable ROptional;
     PE 230 RRequiredC RNotApplicable ROptional;
     PE 231 RRequiredC RNotApplicable ROptional;
     PE 232 ROptional RNotApplicable ROptional;
     PE 233 ROptional RNotApplicable ROptional;
     PE 234 ROptional RNotApplicable ROptional];
  (* L1071-L1080 Electric lock *)
  CL 2 111
    [PE 224 RRequired RRequired RRequired;
     PE 225 ROptional ROptional ROptional;
     PE 226 ROptional RNotApplicable ROptional;
     PE 227 ROptional RNotApplicable ROptional;
     PE 228 ROptional RNotApplicable ROptional;
     PE 229 ROptional RNotApplicable RRequired;
     PE 230 ROptional ROptional ROptional;
     PE 231 ROptional ROptional RRequired];
  (* L1083-L1086 Gas meter *)
  CL 2 130
    [PE 224 RRequired RNotApplicable ROptional;
     PE 226 ROptional RNotApplicable ROptional];
  (* L1089-L1112 Air conditioner ventilation fan *)
  CL 1 52
    [PE 128 RRequired RRequired RRequired;
     PE 160 ROptional ROptional ROptional;
     PE 176 ROptional ROptional ROptional;
     PE 177 ROptional ROptional ROptional;
     PE 178 ROptional ROptional RRequired;
     PE 179 ROptional ROptional ROptional;
     PE 180 ROptional ROptional ROptional;
     PE 185 ROptional RNotApplicable ROptional;
     PE 186 ROptional RNotApplicable ROptional;
     PE 190 ROptional RNotApplicable ROptional;
     PE 191 ROptional ROptional ROptional;
     PE 192 ROptional RNotApplicable ROptional;
     PE 193 ROptional RNotApplicable ROptional;
     PE 194 ROptional RNotApplicable ROptional;
     PE 202 ROptional RNotApplicable ROptional;
     PE 208 ROptional RNotApplicable ROptional;
     PE 209 ROptional RNotApplicable ROptional;
     PE 210 ROptional RNotApplicable ROptional;
     PE 211 ROptional RNotApplicable ROptional;
     PE 212 ROptional RNotApplicable ROptional;
     PE 213 ROptional RNotApplicable ROptional;
     PE 224 ROptional ROptional ROptional];
  (* L1115-L1138 Controller *)
  CL 5 255
    [PE 192 ROptional RNotApplicable ROptional;
     PE 193 ROptional RNotApplicable ROptional;
     PE 194 ROptional ROptional ROptional;
     PE 195 ROptional RNotApplicable ROptional;
     PE 196 ROptional RNotApplicable ROptional;
     PE 197 ROptional RNotApplicable ROptional;
     PE 198 ROptional RNotApplicable ROptional;
     PE 199 ROptional RNotApplicable ROptional;
     PE 199 ROptional RNotApplicable ROptional;
     PE 200 ROptional RNotApplicable ROptional;
     PE 200 ROptional RNotApplicable ROptional;
     PE 201 ROptional RNotApplicable ROptional;
     PE 201 ROptional RNotApplicable ROptional;
     PE 202 ROptional RNotApplicable ROptional;
     PE 202 ROptional RNotApplicable ROptional;
     PE 203 ROptional RNotApplicable ROptional;
     PE 203 ROptional RNotApplicable ROptional;
     PE 204 ROptional RNotApplicable ROptional;
     PE 205 ROptional RNotApplicable ROptional;
     PE 206 ROptional RNotApplicable ROptional;
     PE 207 ROptional RNotApplicable ROptional;
     PE 224 ROptional RNotApplicable ROptional];
  (* L1141-L1151 Extended lighting system *)
  CL 2 164
    [PE 176 ROptional ROptional ROptional;
     PE 192 RRequired RRequired ROptional;
     PE 193 RRequired RNotApplicable ROptional;
     PE 194 RRequired RNotApplicable ROptional;
     PE 195 RRequired RNotApplicable ROptional;
     PE 196 RRequired RNotApplicable ROptional;
     PE 197 RRequired RRequired ROptional;
     PE 198 ROptional ROptional ROptional;
     PE 199 ROptional ROptional ROptional];
  (* L1154-L1156 Temperature sensor *)
  CL 0 17
    [PE 224 RRequired RNotApplicable ROptional];
  (* L1159-L1162 Human detection sensor *)
  CL 0 7
    [PE 176 ROptional ROptional ROptional;
     PE 177 RRequired RNotApplicable RRequired];
  (* L1165-L1200 Refrigerator *)
  CL 3 183
    [PE 160 ROptional ROptional ROptional;
     PE 161 ROptional ROptional ROptional;
     PE 164 ROptional ROptional ROptional;
     PE 165 ROptional RNotApplicable ROptional;
     PE 166 ROptional RNotApplicable ROptional;
     PE 168 ROptional ROptional ROptional;
     PE 169 ROptional ROptional ROptional;
     PE 173 ROptional ROptional ROptional;
     PE 176 RRequiredO RNotApplicable ROptional;
     PE 177 ROptional RNotApplicable RRequired;
     PE 178 ROptional RNotApplicable ROptional;
     PE 179 ROptional RNotApplicable ROptional;
     PE 180 ROptional RNotApplicable ROptional;
     PE 181 ROptional RNotApplicable ROptional;
     PE 182 ROptional RNotApplicable ROptional;
     PE 209 ROptional RNotApplicable ROptional;
     PE 210 ROptional RNotApplicable ROptional;
     PE 211 ROptional RNotApplicable ROptional;
     PE 212 ROptional RNotApplicable ROptional;
     PE 213 ROptional RNotApplicable ROptional;
     PE 216 ROptional RNotApplicable ROptional;
     PE 218 ROptional RNotApplicable ROptional;
     PE 220 ROptional RNotApplicable ROptional;
     PE 224 ROptional RNotApplicable ROptional;
     PE 226 ROptional ROptional ROptional;
     PE 227 ROptional ROptional ROptional;
     PE 228 ROptional ROptional ROptional;
     PE 229 ROptional ROptional ROptional;
     PE 230 ROptional ROptional ROptional;
     PE 233 ROptional ROptional ROptional;
     PE 234 ROptional ROptional ROptional;
     PE 235 ROptional ROptional ROptional;
     PE 236 ROptional ROptional ROptional;
     PE 237 ROptional ROptional ROptional];
  (* L1203-L1215 Multiple input pcs *)
  CL 2 165
    [PE 128 RRequired ROptional RRequired;
     PE 131 RRequired RNotApplicable ROptional;
     PE 137 RRequired RNotApplicable ROptional;
     PE 140 RRequired RNotApplicable ROptional;
     PE 151 RRequired ROptional ROptional;
     PE 152 RRequired ROptional ROptional;
     PE 208 RRequired RNotApplicable ROptional;
     PE 224 RRequired RNotApplicable ROptional;
     PE 227 RRequired RNotApplicable ROptional;
     PE 231 RRequired RNotApplicable ROptional;
     PE 232 RRequired RNotApplicable ROptional];
  (* L1218-L1225 Air cleaner *)
  CL 1 53
    [PE 128 RRequired RRequired RRequired;
     PE 160 ROptional ROptional ROptional;
     PE 192 ROptional RNotApplicable ROptional;
     PE 193 ROptional RNotApplicable ROptional;
     PE 194 ROptional ROptional ROptional;
     PE 225 ROptional RNotApplicable ROptional];
  (* L1228-L1247 Low-voltage smart electric energy meter *)
  CL 2 136
    [PE 192 RRequiredC RNotApplicable ROptional;
     PE 208 RRequired RNotApplicable ROptional;
     PE 211 ROptional RNotApplicable ROptional;
     PE 215 RRequired RNotApplicable ROptional;
     PE 224 RRequired RNotApplicable ROptional;
     PE 225 RRequired RNotApplicable ROptional;
     PE 226 RRequired RNotApplicable ROptional;
     PE 227 RRequiredC RNotApplicable ROptional;
     PE 228 RRequiredC RNotApplicable ROptional;
     PE 229 RRequired RRequired ROptional;
     PE 231 RRequired RNotApplicable ROptional;
     PE 232 RRequired RNotApplicable ROptional;
     PE 234 RRequired RNotApplicable ROptional;
     PE 235 RRequiredC RNotApplicable ROptional;
     PE 236 ROptional RNotApplicable ROptional;
     PE 237 ROptional ROptional ROptional;
     PE 238 RRequired RNotApplicable ROptional;
     PE 239 RRequired RRequired ROptional]].
