{
"M05": {
"tightened": [
"C21_remote_operators_refused"
],
"note": "no theorem failed at first: C21 only covered local users and server bans. Tightened by the new theorem C21_remote_operators_refused (SQUIT and CONNECT sent by users of other servers), which fails for this edit."
},
"M28": {
"note": "harmless edit of the model (only affects unused slots); the failing theorems rest on its exact shape"
},
"M54": {
"tightened": [
"C28_kick_partial"
],
"note": "no theorem failed at first: nothing was said about what the source of a KICK is sent. C28_kick_partial (written afterwards) states that the source link is sent nothing."
},
"N22": {
"note": "harmless edit: no nickname of a known client contains '!', so looking for one finds nobody"
},
"N37": {
"note": "harmless edit: the buffer is flushed one byte later; the failing theorems rest on the exact shape of the model"
},
"N44": {
"tightened": [
"C01_list_exact",
"C01_list_sound"
],
"note": "no theorem failed at first: the matcher for lists of masks was only used by others. Tightened by C01_list_exact and C01_list_sound, which say which part of each entry is matched."
}
}