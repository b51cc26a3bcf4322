(* The style sheets shipped with the library: bglib/image/resource/<theme>/default.css, verbatim. *)
From Verif Require Import Py.
Open Scope string_scope.

(* bglib/image/resource/deutsche/default.css *)
Definition deutsche_css : string := "board {x: 0; y: 0; width: 341; height: 262; background: red}

board {font:uri(""ActionManShadedItalic.ttf"")}

match {x: 291; y: 0; width: 50; height: 232; background:#181818}
length {x: 316; y: 93; width: 25; height: 46 ; color:#cccccc}

crawford {x: 291; y: 93; width: 25; height: 46; color:#cccccc}
score {width: 50; height: 93}
score[player=you] {x: 291; y:139; color: #d8c810}
score[player=him] {x: 291; y: 0 ; color: #d01020}


action{width: 341; height: 30; x:0; y:232 ; background: #181818}
action[player=you] {color: #d8c810}
action[player=him] {color: #d01020}


player {width:0; height: 0}
player[player=you]{x:0; y:0}
player[player=him]{x:0; y:0}


position {x: 0; y: 0; width: 291; height: 232; background: #181818}

point {width: 18; height:88}

point[parity=odd] {color: #080808}
point[parity=even] {color: #383838}
point:data(1) { x: 248 ; y: 139 }
point:data(2) { x: 230 ; y: 139 }
point:data(3) { x: 212 ; y: 139 }
point:data(4) { x: 194 ; y: 139 }
point:data(5) { x: 176 ; y: 139 }
point:data(6) { x: 158 ; y: 139 }
point:data(7) { x: 115 ; y: 139 }
point:data(8) { x:  97 ; y: 139 }
point:data(9) { x:  79 ; y: 139 }
point:data(10) {x:  61 ; y: 139 }
point:data(11) {x:  43 ; y: 139 }
point:data(12) {x:  25 ; y: 139 }
point:data(13) {x:  25 ; y:   5 ; flip:  True  }
point:data(14) {x:  43 ; y:   5 ; flip:  True  }
point:data(15) {x:  61 ; y:   5 ; flip:  True  }
point:data(16) {x:  79 ; y:   5 ; flip:  True  }
point:data(17) {x:  97 ; y:   5 ; flip:  True  }
point:data(18) {x: 115 ; y:   5 ; flip:  True  }
point:data(19) {x: 158 ; y:   5 ; flip:  True  }
point:data(20) {x: 176 ; y:   5 ; flip:  True  }
point:data(21) {x: 194 ; y:   5 ; flip:  True  }
point:data(22) {x: 212 ; y:   5 ; flip:  True  }
point:data(23) {x: 230 ; y:   5 ; flip:  True  }
point:data(24) {x: 248 ; y:   5 ; flip:  True  }

bar {width: 25; height: 112; background: #083008}
bar[player=you] {x:133; y:116}
bar[player=him] {x:133; y: 5}

cubeholder {width: 25 ;height: 224; x: 0; y: 5 ;background: #083008}

home {width: 25 ;height: 112}
home[player=you] {x: 266; y: 116 ; background: #083008}
home[player=him] {x: 266; y: 5; background: #083008; flip:  True  }

field {width: 108; height: 46; text: Backgammonbase ; color:#383838}
field {font:uri(""ActionManShadedItalic.ttf"")}
field[player=you] {x: 158;y: 93}
field[player=him] {x: 25 ;y: 93}

#field[player=you] die[id=left] {x: 176; y: 95;  color:#d01020; background:#d8c810}
#field[player=you] die[id=right] {x: 204; y: 95; color:#d01020; background:#d8c810}
field[player=you] die[id=left] {x: 176; y: 95;  color:black; background:#d8c810}
field[player=you] die[id=right] {x: 204; y: 95; color:black; background:#d8c810}
#field[player=him] die[id=left] {x: 43; y:95 ;   color:#d8c810; background:#d01020}
#field[player=him] die[id=right] {x: 71; y:95 ;  color:#d8c810; background:#d01020}
field[player=him] die[id=left] {x: 43; y:95 ;   color:black; background:#d01020}
field[player=him] die[id=right] {x: 71; y:95 ;  color:black; background:#d01020}




die {width: 16; height: 16; diestyle:dot; eyesize:3}


cube {width: 25; height: 25; background: #cccccc; color: black; initialCube: 64}
cubeholder cube {x: 0 ; y: 105}
home[player=you] cube {x: 0; y: 197} 
home[player=him] cube {x: 0; y: 5; flip=True}
field[player=you] cube {x: 50; y: 100}
field[player=him] cube {x: 180; y: 100}
cubeholder cube {x: 0; y: 105}

field[player=you] resign {x: 157;y: 93}
field[player=him] resign {x: 25 ;y: 93}
resign {width: 100; height: 46; color: gold}

top_frame {x:0; y:0; height:5; width:291; background:#083008}
bottom_frame {x:0; y:227; height:5; width:291; background:#083008 }

chequer {width:16; height:16; y:210 ; x_offset: 0; y_offset: -18; max_count:5}
point[flip=True] chequer {y:6 ;y_offset: 18}
home[player=him] chequer{x:269; y:90 ;y_offset: -18}
home[player=you] chequer{x:269; y:125 ;y_offset: 18}
bar[player=him] chequer{x:137; y:80 ;y_offset: -18; max_count:4}
bar[player=you] chequer{x:137; y:135 ;y_offset: 18; max_count:4}
chequer[player=you] {color: #d8c810}
chequer[player=him] {color: #d01020}

".

(* bglib/image/resource/flower/default.css *)
Definition flower_css : string := "board {x: 0; y: 0; width: 341; height: 262; background: red}

board {font:uri(""Advert-Italic.ttf"")}

match {x: 291; y: 0; width: 50; height: 232; background:#184a29}
length {x: 316; y: 93; width: 25; height: 46 ; color:#448c6f}

crawford {x: 291; y: 93; width: 25; height: 46; color:#448c6f}
score {width: 50; height: 93}
score[player=you] {x: 291; y:139; color: #e0d010}
score[player=him] {x: 291; y: 0 ; color: #b41d1f}


action{width: 341; height: 30; x:0; y:232 ; background: #184a29}
action[player=you] {color: #e0d010}
action[player=him] {color: #b41d1f}


player {width:0; height: 0}
player[player=you]{x:0; y:0}
player[player=him]{x:0; y:0}


position {x: 0; y: 0; width: 291; height: 232; background: #184a28}

point {width: 18; height:88}

point[parity=odd] {color: #083a18}
point[parity=even] {color: #285a39}
point:data(1) { x: 248 ; y: 139 }
point:data(2) { x: 230 ; y: 139 }
point:data(3) { x: 212 ; y: 139 }
point:data(4) { x: 194 ; y: 139 }
point:data(5) { x: 176 ; y: 139 }
point:data(6) { x: 158 ; y: 139 }
point:data(7) { x: 115 ; y: 139 }
point:data(8) { x:  97 ; y: 139 }
point:data(9) { x:  79 ; y: 139 }
point:data(10) {x:  61 ; y: 139 }
point:data(11) {x:  43 ; y: 139 }
point:data(12) {x:  25 ; y: 139 }
point:data(13) {x:  25 ; y:   5 ; flip:  True  }
point:data(14) {x:  43 ; y:   5 ; flip:  True  }
point:data(15) {x:  61 ; y:   5 ; flip:  True  }
point:data(16) {x:  79 ; y:   5 ; flip:  True  }
point:data(17) {x:  97 ; y:   5 ; flip:  True  }
point:data(18) {x: 115 ; y:   5 ; flip:  True  }
point:data(19) {x: 158 ; y:   5 ; flip:  True  }
point:data(20) {x: 176 ; y:   5 ; flip:  True  }
point:data(21) {x: 194 ; y:   5 ; flip:  True  }
point:data(22) {x: 212 ; y:   5 ; flip:  True  }
point:data(23) {x: 230 ; y:   5 ; flip:  True  }
point:data(24) {x: 248 ; y:   5 ; flip:  True  }

bar {width: 25; height: 112; background: #583017}
bar[player=you] {x:133; y:116}
bar[player=him] {x:133; y: 5}

cubeholder {width: 25 ;height: 224; x: 0; y: 5 ;background: #583017}

home {width: 25 ;height: 112}
home[player=you] {x: 266; y: 116 ; background: #583017}
home[player=him] {x: 266; y: 5; background: #583017; flip:  True  }

field {width: 108; height: 46; text: Backgammonbase ; color:#285a39}
field {font:uri(""Advert-Italic.ttf"")}
field[player=you] {x: 158;y: 93}
field[player=him] {x: 25 ;y: 93}

field[player=you] die[id=left] {x: 176; y: 95;  color:#b41d1f; background:#e0d010}
field[player=you] die[id=right] {x: 204; y: 95; color:#b41d1f; background:#e0d010}
field[player=him] die[id=left] {x: 43; y:95 ;   color:#e0d010; background:#b41d1f}
field[player=him] die[id=right] {x: 71; y:95 ;  color:#e0d010; background:#b41d1f}




die {width: 16; height: 16; diestyle:dot; eyesize:3}

cube {width: 25; height: 25; background: #107010; color: #448c6f; initialCube: 64}
cubeholder cube {x: 0 ; y: 105}
home[player=you] cube {x: 0; y: 197} 
home[player=him] cube {x: 0; y: 5; flip=True}
field[player=you] cube {x: 50; y: 100}
field[player=him] cube {x: 180; y: 100}
cubeholder cube {x: 0; y: 105}

field[player=you] resign {x: 157;y: 93}
field[player=him] resign {x: 25 ;y: 93}
resign {width: 100; height: 46; color: gold}

top_frame {x:0; y:0; height:5; width:291; background:#583017}
bottom_frame {x:0; y:227; height:5; width:291; background:#583017 }

chequer {width:16; height:16; y:210 ; x_offset: 0; y_offset: -18; max_count:5}
point[flip=True] chequer {y:6 ;y_offset: 18}
home[player=him] chequer{x:269; y:90 ;y_offset: -18}
home[player=you] chequer{x:269; y:125 ;y_offset: 18}
bar[player=him] chequer{x:137; y:80 ;y_offset: -18; max_count:4}
bar[player=you] chequer{x:137; y:135 ;y_offset: 18; max_count:4}
chequer[player=you] {color: #e0d010}
chequer[player=him] {color: #b41d1f}

".

(* bglib/image/resource/kotobuki/default.css *)
Definition kotobuki_css : string := "board {x: 0; y: 0; width: 341; height: 262; background: red}

board {font:uri(""DejaVuLGCSans-Bold.ttf"")}

match {x: 291; y: 0; width: 50; height: 232; background:#b0b0b0}
length {x: 316; y: 93; width: 25; height: 46 ; color:black}

crawford {x: 291; y: 93; width: 25; height: 46; color:black}
score {width: 50; height: 93}
score[player=you] {x: 291; y:139; color: #f0f0f0}
score[player=him] {x: 291; y: 0 ; color: #c02020}


action{width: 341; height: 30; x:0; y:232 ; background: #b0b0b0}
action[player=you] {color: #f0f0f0}
action[player=him] {color: #c02020}


player {width:0; height: 0}
player[player=you]{x:0; y:0}
player[player=him]{x:0; y:0}


position {x: 0; y: 0; width: 291; height: 232; background: #b0b0b0}

point {width: 18; height:88}
#; padding:0; border:0;margin:0;}

point[parity=odd] {color: #c5c5c5}
point[parity=even] {color: #f06060}
point:data(1) { x: 248 ; y: 139 }
point:data(2) { x: 230 ; y: 139 }
point:data(3) { x: 212 ; y: 139 }
point:data(4) { x: 194 ; y: 139 }
point:data(5) { x: 176 ; y: 139 }
point:data(6) { x: 158 ; y: 139 }
point:data(7) { x: 115 ; y: 139 }
point:data(8) { x:  97 ; y: 139 }
point:data(9) { x:  79 ; y: 139 }
point:data(10) {x:  61 ; y: 139 }
point:data(11) {x:  43 ; y: 139 }
point:data(12) {x:  25 ; y: 139 }
point:data(13) {x:  25 ; y:   5 ; flip:  True  }
point:data(14) {x:  43 ; y:   5 ; flip:  True  }
point:data(15) {x:  61 ; y:   5 ; flip:  True  }
point:data(16) {x:  79 ; y:   5 ; flip:  True  }
point:data(17) {x:  97 ; y:   5 ; flip:  True  }
point:data(18) {x: 115 ; y:   5 ; flip:  True  }
point:data(19) {x: 158 ; y:   5 ; flip:  True  }
point:data(20) {x: 176 ; y:   5 ; flip:  True  }
point:data(21) {x: 194 ; y:   5 ; flip:  True  }
point:data(22) {x: 212 ; y:   5 ; flip:  True  }
point:data(23) {x: 230 ; y:   5 ; flip:  True  }
point:data(24) {x: 248 ; y:   5 ; flip:  True  }

bar {width: 25; height: 112; background: #a09797}
bar[player=you] {x:133; y:116}
bar[player=him] {x:133; y: 5}

cubeholder {width: 25 ;height: 224; x: 0; y: 5 ;background: #a09797}

home {width: 25 ;height: 112}
home[player=you] {x: 266; y: 116 ; background: #a09797}
home[player=him] {x: 266; y: 5; background: #a09797; flip:  True  }

field {width: 108; height: 46; text: Backgammonbase ; color:#c5c5c5}
field {font:uri(""DejaVuLGCSans-Bold.ttf"")}
field[player=you] {x: 158;y: 93}
field[player=him] {x: 25 ;y: 93}

field[player=you] die[id=left] {x: 176; y: 95;  color:#c02020; background:#f0f0f0}
field[player=you] die[id=right] {x: 204; y: 95; color:#c02020; background:#f0f0f0}
field[player=him] die[id=left] {x: 43; y:95 ;   color:#f0f0f0; background:#c02020}
field[player=him] die[id=right] {x: 71; y:95 ;  color:#f0f0f0; background:#c02020}




die {width: 16; height: 16; diestyle:dot; eyesize:3}


cube {width: 25; height: 25; background: white; color: black; initialCube: 64}
cubeholder cube {x: 0 ; y: 105}
home[player=you] cube {x: 0; y: 197} 
home[player=him] cube {x: 0; y: 5; flip=True}
field[player=you] cube {x: 50; y: 100}
field[player=him] cube {x: 180; y: 100}
cubeholder cube {x: 0; y: 105}

field[player=you] resign {x: 157;y: 93}
field[player=him] resign {x: 25 ;y: 93}
resign {width: 100; height: 46; color: gold}

top_frame {x:0; y:0; height:5; width:291; background:#a09797}
bottom_frame {x:0; y:227; height:5; width:291; background:#a09797 }

chequer {width:16; height:16; y:210 ; x_offset: 0; y_offset: -18; max_count:5}
point[flip=True] chequer {y:6 ;y_offset: 18}
home[player=him] chequer{x:269; y:90 ;y_offset: -18}
home[player=you] chequer{x:269; y:125 ;y_offset: 18}
bar[player=him] chequer{x:137; y:80 ;y_offset: -18; max_count:4}
bar[player=you] chequer{x:137; y:135 ;y_offset: 18; max_count:4}
chequer[player=you] {color: #f0f0f0}
chequer[player=him] {color: #c02020}

".

(* bglib/image/resource/matrix/default.css *)
Definition matrix_css : string := "board {x: 0; y: 0; width: 1000; height: 800}
board {font:uri(""DejaVuLGCSans-Bold.ttf"")}

match {x: 800; y: 0; width: 200; height: 1000}
length {x: 900; y: 400; width: 100; height: 200}

crawford {x: 800; y: 400; width: 100; height: 200}

score {width: 200; height: 300}
score[player=you] {x: 800; y:500; color: #3cb7ff}
score[player=him] {x: 800; y:0; color: #fd4993}

action{width: 100; height: 100;}
action[player=you] {x: 830; y:670; image: uri(""ind_blue_r.png"") }
action[player=him] {x: 830; y:30; image: uri(""ind_red_l.png"") }
player {width:0; height: 0}
player[player=you]{x:0; y:0}
player[player=him]{x:0; y:0}


position {x: 0; y: 0; width: 800; height: 800; image: uri(""position.png"")}
point        {width: 100; height:100}
point:data(1) { x: 560 ; y: 560 }
point:data(2) { x: 460 ; y: 560 }
point:data(3) { x: 360 ; y: 560 }
point:data(4) { x: 260 ; y: 560 }
point:data(5) { x: 160 ; y: 560 }
point:data(6) { x: 160 ; y: 460 }
point:data(7) { x: 260 ; y: 460 }
point:data(8) { x: 360 ; y: 460 }
point:data(9) { x: 460 ; y: 460 }
point:data(10) {x: 560 ; y: 460 }
point:data(11) {x: 560 ; y: 360 }
point:data(12) {x: 460 ; y: 360 }


point:data(13) {x: 260 ; y: 360 }
point:data(14) {x: 160 ; y: 360 }
point:data(15) {x: 160 ; y: 260 }
point:data(16) {x: 260 ; y: 260 }
point:data(17) {x: 360 ; y: 260 }
point:data(18) {x: 460 ; y: 260 }
point:data(19) {x: 560 ; y: 260 }
point:data(20) {x: 560 ; y: 160 }
point:data(21) {x: 460 ; y: 160 }
point:data(22) {x: 360 ; y: 160 }
point:data(23) {x: 260 ; y: 160 }
point:data(24) {x: 160 ; y: 160 }

bar {width: 25; height: 111}
bar[player=him] {x:160; y: 10}
bar[player=you] {x:160; y:770}


home {width: 500;height: 70}
home[player=you] {x: 160; y: 670}
home[player=him] {x: 160; y: 60}


field {width: 100; height: 650}
field[player=him] {x: 30;y: 30}
field[player=you] {x: 670;y: 30}


die {width: 30; height: 30}

field[player=him] die[id=left] {x: 60; y:500}
field[player=him] die[id=right] {x: 105; y:480}
field[player=him] die:data(1) {image: uri(""dice_red_1.png"")}
field[player=him] die:data(2) {image: uri(""dice_red_2.png"")}
field[player=him] die:data(3) {image: uri(""dice_red_3.png"")}
field[player=him] die:data(4) {image: uri(""dice_red_4.png"")}
field[player=him] die:data(5) {image: uri(""dice_red_5.png"")}
field[player=him] die:data(6) {image: uri(""dice_red_6.png"")}

field[player=you] die[id=left] {x: 690; y: 260}
field[player=you] die[id=right] {x: 735; y: 280}
field[player=you] die:data(1) {image: uri(""dice_blue_1.png"")}
field[player=you] die:data(2) {image: uri(""dice_blue_2.png"")}
field[player=you] die:data(3) {image: uri(""dice_blue_3.png"")}
field[player=you] die:data(4) {image: uri(""dice_blue_4.png"")}
field[player=you] die:data(5) {image: uri(""dice_blue_5.png"")}
field[player=you] die:data(6) {image: uri(""dice_blue_6.png"")}

cubeholder {width: 100 ;height: 100; x: 360; y: 460}
home[player=you] cube {x: 580; y: 680} 
home[player=him] cube {x: 580; y: 60}
field[player=you] cube {x: 680; y: 360}
field[player=him] cube {x: 50; y: 360}
cubeholder cube {x: 360; y: 360}
cube {width: 80; height: 80}

field[player=you] chip {x: 157;y: 93; x-offset: 20; y-offset: 0}
field[player=him] chip {x: 25 ;y: 93; x-offset: 20; y-offset: 0}
chip {width: 25; height: 25;}

chequer {max_count: 8}
chequer[player=you] {width: 20; height:20; image:uri(""checker_blue.png"")}
chequer[player=him] {width: 20; height:20; image:uri(""checker_red.png"")}
point chequer {x_offset: 30; y_offset:0}
point chequer {x_offset2: -90; y_offset2: 30}
home chequer {x_offset: 30; y_offset:0 ; max_count: 15}

".

(* bglib/image/resource/minimal/default.css *)
Definition minimal_css : string := "board {x: 0; y: 0; width: 341; height: 262; background: #596580}
board {font:uri(""Alien-Encounters-Bold-Italic.ttf"")}

match {x: 291; y: 0; width: 50; height: 232; background: #625e5d}
length {x: 316; y: 93; width: 25; height: 46 ; color:white}

crawford {x: 291; y: 93; width: 25; height: 46; color:white}
score {width: 50; height: 93}
score[player=you] {x: 291; y:139; color: #3ca7e4}
score[player=him] {x: 291; y: 0 ; color: #fd4993}


action{width: 341; height: 30; x:0; y:232 ; background: #625e5d}
action[player=you] {color: #3cb7ff}
action[player=him] {color: #fd4993}

player {width:0; height: 0}
player[player=you]{x:0; y:0}
player[player=him]{x:0; y:0}

position {x: 0; y: 0; width: 291; height: 232; background: #625e5d}
point {width: 18; height:88}
point[parity=odd] {color: #7a797b}
point[parity=even] {color: #4a495a}
point:data(1) { x: 248 ; y: 139 }
point:data(2) { x: 230 ; y: 139 }
point:data(3) { x: 212 ; y: 139 }
point:data(4) { x: 194 ; y: 139 }
point:data(5) { x: 176 ; y: 139 }
point:data(6) { x: 158 ; y: 139 }
point:data(7) { x: 115 ; y: 139 }
point:data(8) { x:  97 ; y: 139 }
point:data(9) { x:  79 ; y: 139 }
point:data(10) {x:  61 ; y: 139 }
point:data(11) {x:  43 ; y: 139 }
point:data(12) {x:  25 ; y: 139 }
point:data(13) {x:  25 ; y:   5 ; flip:  True  }
point:data(14) {x:  43 ; y:   5 ; flip:  True  }
point:data(15) {x:  61 ; y:   5 ; flip:  True  }
point:data(16) {x:  79 ; y:   5 ; flip:  True  }
point:data(17) {x:  97 ; y:   5 ; flip:  True  }
point:data(18) {x: 115 ; y:   5 ; flip:  True  }
point:data(19) {x: 158 ; y:   5 ; flip:  True  }
point:data(20) {x: 176 ; y:   5 ; flip:  True  }
point:data(21) {x: 194 ; y:   5 ; flip:  True  }
point:data(22) {x: 212 ; y:   5 ; flip:  True  }
point:data(23) {x: 230 ; y:   5 ; flip:  True  }
point:data(24) {x: 248 ; y:   5 ; flip:  True  }

bar {width: 25; height: 112; background: #453f3d}
bar[player=you] {x:133; y:116}
bar[player=him] {x:133; y: 5}
#; flip=True}

cubeholder {width: 25 ;height: 224; x: 0; y: 5 ;background: #453f3d}

home {width: 25 ;height: 112}
home[player=you] {x: 266; y: 116 ; background: #453f3d}
home[player=him] {x: 266; y: 5; background: #453f3d}
#; flip:  True  }

field {width: 108; height: 46; text: Backgammonbase ; color:#7a797b}
field {font:uri(""Alien-Encounters-Bold-Italic.ttf"")}
field[player=you] {x: 158;y: 93}
field[player=him] {x: 25 ;y: 93}

field[player=you] die[id=left] {x: 176; y: 95; background:#3ca7e4}
field[player=you] die[id=right] {x: 204; y: 95; background:#3ca7e4}
field[player=him] die[id=left] {x: 43; y:95 ; background:#fd4993}
field[player=him] die[id=right] {x: 71; y:95 ; background:#fd4993}
die {width: 16; height: 16 ; color:white; diestyle:dot; eyesize:3}


cube {width: 25; height: 25; background: white; color: black; initialCube: 64}
cubeholder cube {x: 0 ; y: 105}
home[player=you] cube {x: 0; y: 197} 
home[player=him] cube {x: 0; y: 5}
field[player=you] cube {x: 50; y: 100}
field[player=him] cube {x: 180; y: 100}
cubeholder cube {x: 0; y: 105}

field[player=you] resign {x: 157;y: 93}
field[player=him] resign {x: 25 ;y: 93}
resign {width: 100; height: 46; color: gold}

top_frame {x:0; y:0; height:5; width:291; background:#453f3d}
bottom_frame {x:0; y:227; height:5; width:291; background:#453f3d}

chequer {width:16; height:16; y:210 ; x_offset: 0; y_offset: -18; max_count:5}
point[flip=True] chequer {y:6 ;y_offset: 18}
home[player=him] chequer{x:269; y:90 ;y_offset: -18}
home[player=you] chequer{x:269; y:125 ;y_offset: 18}
bar[player=him] chequer{x:137; y:80 ;y_offset: -18; max_count:4}
bar[player=you] chequer{x:137; y:135 ;y_offset: 18; max_count:4}
chequer[player=you] {color: #3ca7e4}
chequer[player=him] {color: #fd4993}

".

(* bglib/image/resource/nature/default.css *)
Definition nature_css : string := "board {x: 0; y: 0; width: 341; height: 262; background: red}

board {font:uri(""DejaVuLGCSans-Bold.ttf"")}

match {x: 291; y: 0; width: 50; height: 232; background:#184a29}
length {x: 316; y: 93; width: 25; height: 46 ; color:black}

crawford {x: 291; y: 93; width: 25; height: 46; color:black}
score {width: 50; height: 93}
score[player=you] {x: 291; y:139; color: #e0e0e0}
score[player=him] {x: 291; y: 0 ; color: #5078b8}


action{width: 341; height: 30; x:0; y:232 ; background: #184a29}
action[player=you] {color: #e0e0e0}
action[player=him] {color: #5078b8}


player {width:0; height: 0}
player[player=you]{x:0; y:0}
player[player=him]{x:0; y:0}


position {x: 0; y: 0; width: 291; height: 232; background: #184a28}

point {width: 18; height:88}

point[parity=odd] {color: #083a18}
point[parity=even] {color: #285a38}
point:data(1) { x: 248 ; y: 139 }
point:data(2) { x: 230 ; y: 139 }
point:data(3) { x: 212 ; y: 139 }
point:data(4) { x: 194 ; y: 139 }
point:data(5) { x: 176 ; y: 139 }
point:data(6) { x: 158 ; y: 139 }
point:data(7) { x: 115 ; y: 139 }
point:data(8) { x:  97 ; y: 139 }
point:data(9) { x:  79 ; y: 139 }
point:data(10) {x:  61 ; y: 139 }
point:data(11) {x:  43 ; y: 139 }
point:data(12) {x:  25 ; y: 139 }
point:data(13) {x:  25 ; y:   5 ; flip:  True  }
point:data(14) {x:  43 ; y:   5 ; flip:  True  }
point:data(15) {x:  61 ; y:   5 ; flip:  True  }
point:data(16) {x:  79 ; y:   5 ; flip:  True  }
point:data(17) {x:  97 ; y:   5 ; flip:  True  }
point:data(18) {x: 115 ; y:   5 ; flip:  True  }
point:data(19) {x: 158 ; y:   5 ; flip:  True  }
point:data(20) {x: 176 ; y:   5 ; flip:  True  }
point:data(21) {x: 194 ; y:   5 ; flip:  True  }
point:data(22) {x: 212 ; y:   5 ; flip:  True  }
point:data(23) {x: 230 ; y:   5 ; flip:  True  }
point:data(24) {x: 248 ; y:   5 ; flip:  True  }

bar {width: 25; height: 112; background: #583017}
bar[player=you] {x:133; y:116}
bar[player=him] {x:133; y: 5}

cubeholder {width: 25 ;height: 224; x: 0; y: 5 ;background: #583017}

home {width: 25 ;height: 112}
home[player=you] {x: 266; y: 116 ; background: #583017}
home[player=him] {x: 266; y: 5; background: #583017; flip:  True  }

field {width: 108; height: 46; text: Backgammonbase ; color:#285a38}
field {font:uri(""DejaVuLGCSans-Bold.ttf"")}
field[player=you] {x: 158;y: 93}
field[player=him] {x: 25 ;y: 93}

field[player=you] die[id=left] {x: 176; y: 95;  color:#5078b8; background:#e0e0e0}
field[player=you] die[id=right] {x: 204; y: 95; color:#5078b8; background:#e0e0e0}
field[player=him] die[id=left] {x: 43; y:95 ;   color:#e0e0e0; background:#5078b8}
field[player=him] die[id=right] {x: 71; y:95 ;  color:#e0e0e0; background:#5078b8}




die {width: 16; height: 16; diestyle:dot; eyesize:3}


cube {width: 25; height: 25; background: white; color: black; initialCube: 64}
cubeholder cube {x: 0 ; y: 105}
home[player=you] cube {x: 0; y: 197} 
home[player=him] cube {x: 0; y: 5; flip=True}
field[player=you] cube {x: 50; y: 100}
field[player=him] cube {x: 180; y: 100}
cubeholder cube {x: 0; y: 105}

field[player=you] resign {x: 157;y: 93}
field[player=him] resign {x: 25 ;y: 93}
resign {width: 100; height: 46; color: gold}

top_frame {x:0; y:0; height:5; width:291; background:#583017}
bottom_frame {x:0; y:227; height:5; width:291; background:#583017 }

chequer {width:16; height:16; y:210 ; x_offset: 0; y_offset: -18; max_count:5}
point[flip=True] chequer {y:6 ;y_offset: 18}
home[player=him] chequer{x:269; y:90 ;y_offset: -18}
home[player=you] chequer{x:269; y:125 ;y_offset: 18}
bar[player=him] chequer{x:137; y:80 ;y_offset: -18; max_count:4}
bar[player=you] chequer{x:137; y:135 ;y_offset: 18; max_count:4}
chequer[player=you] {color: #e0e0e0}
chequer[player=him] {color: #5078b8}

".

(* bglib/image/resource/neon/default.css *)
Definition neon_css : string := "board {x: 0; y: 0; width: 341; height: 262; background: red}

board {font:uri(""Cake.ttf"")}

match {x: 291; y: 0; width: 50; height: 232; background:#ee40d6}
length {x: 316; y: 93; width: 25; height: 46 ; color:#345c4f}

crawford {x: 291; y: 93; width: 25; height: 46; color:#345c4f}
score {width: 50; height: 93}
score[player=you] {x: 291; y:139; color: #e0d010}
score[player=him] {x: 291; y: 0 ; color: #b41d1f}


action{width: 341; height: 30; x:0; y:232 ; background: #ee40d6}
action[player=you] {color: #e0d010}
action[player=him] {color: #b41d1f}


player {width:0; height: 0}
player[player=you]{x:0; y:0}
player[player=him]{x:0; y:0}


position {x: 0; y: 0; width: 291; height: 232; background: #ee40d5}

point {width: 18; height:88}

point[parity=odd] {color: #e026b6}
point[parity=even] {color: #e670d8}
point:data(1) { x: 248 ; y: 139 }
point:data(2) { x: 230 ; y: 139 }
point:data(3) { x: 212 ; y: 139 }
point:data(4) { x: 194 ; y: 139 }
point:data(5) { x: 176 ; y: 139 }
point:data(6) { x: 158 ; y: 139 }
point:data(7) { x: 115 ; y: 139 }
point:data(8) { x:  97 ; y: 139 }
point:data(9) { x:  79 ; y: 139 }
point:data(10) {x:  61 ; y: 139 }
point:data(11) {x:  43 ; y: 139 }
point:data(12) {x:  25 ; y: 139 }
point:data(13) {x:  25 ; y:   5 ; flip:  True  }
point:data(14) {x:  43 ; y:   5 ; flip:  True  }
point:data(15) {x:  61 ; y:   5 ; flip:  True  }
point:data(16) {x:  79 ; y:   5 ; flip:  True  }
point:data(17) {x:  97 ; y:   5 ; flip:  True  }
point:data(18) {x: 115 ; y:   5 ; flip:  True  }
point:data(19) {x: 158 ; y:   5 ; flip:  True  }
point:data(20) {x: 176 ; y:   5 ; flip:  True  }
point:data(21) {x: 194 ; y:   5 ; flip:  True  }
point:data(22) {x: 212 ; y:   5 ; flip:  True  }
point:data(23) {x: 230 ; y:   5 ; flip:  True  }
point:data(24) {x: 248 ; y:   5 ; flip:  True  }

bar {width: 25; height: 112; background: #c630e0}
bar[player=you] {x:133; y:116}
bar[player=him] {x:133; y: 5}

cubeholder {width: 25 ;height: 224; x: 0; y: 5 ;background: #c630e0}

home {width: 25 ;height: 112}
home[player=you] {x: 266; y: 116 ; background: #c630e0}
home[player=him] {x: 266; y: 5; background: #c630e0; flip:  True  }

field {width: 108; height: 46; text: Backgammonbase ; color:#e670d8}
field {font:uri(""Cake.ttf"")}
field[player=you] {x: 158;y: 93}
field[player=him] {x: 25 ;y: 93}

field[player=you] die[id=left] {x: 176; y: 95;  color:#b41d1f; background:#e0d010}
field[player=you] die[id=right] {x: 204; y: 95; color:#b41d1f; background:#e0d010}
field[player=him] die[id=left] {x: 43; y:95 ;   color:#e0d010; background:#b41d1f}
field[player=him] die[id=right] {x: 71; y:95 ;  color:#e0d010; background:#b41d1f}




die {width: 16; height: 16; diestyle:dot; eyesize:3}


cube {width: 25; height: 25; background: #649c7f; color: #345c4f; initialCube: 64}
cubeholder cube {x: 0 ; y: 105}
home[player=you] cube {x: 0; y: 197} 
home[player=him] cube {x: 0; y: 5; flip=True}
field[player=you] cube {x: 50; y: 100}
field[player=him] cube {x: 180; y: 100}
cubeholder cube {x: 0; y: 105}

field[player=you] resign {x: 157;y: 93}
field[player=him] resign {x: 25 ;y: 93}
resign {width: 100; height: 46; color: gold}

top_frame {x:0; y:0; height:5; width:291; background:#c630e0}
bottom_frame {x:0; y:227; height:5; width:291; background:#c630e0 }

chequer {width:16; height:16; y:210 ; x_offset: 0; y_offset: -18; max_count:5}
point[flip=True] chequer {y:6 ;y_offset: 18}
home[player=him] chequer{x:269; y:90 ;y_offset: -18}
home[player=you] chequer{x:269; y:125 ;y_offset: 18}
bar[player=him] chequer{x:137; y:80 ;y_offset: -18; max_count:4}
bar[player=you] chequer{x:137; y:135 ;y_offset: 18; max_count:4}
chequer[player=you] {color: #e0d010}
chequer[player=him] {color: #b41d1f}

".

(* bglib/image/resource/safari/default.css *)
Definition safari_css : string := "board {x: 0; y: 0; width: 341; height: 232; background: red;}
board {font:uri(""DejaVuLGCSans-Bold.ttf"")}

match {x: 291; y: 0; width: 100; height: 232}
length {x: 316; y: 93; width: 25; height: 46}
length:data(0) {image: uri(""score_0.jpg"")}
length:data(1) {image: uri(""score_1.jpg"")}
length:data(2) {image: uri(""score_2.jpg"")}
length:data(3) {image: uri(""score_3.jpg"")}
length:data(4) {image: uri(""score_4.jpg"")}
length:data(5) {image: uri(""score_5.jpg"")}
length:data(6) {image: uri(""score_6.jpg"")}
length:data(7) {image: uri(""score_7.jpg"")}
length:data(8) {image: uri(""score_8.jpg"")}
length:data(9) {image: uri(""score_9.jpg"")}
length:data(10) {image: uri(""score_10.jpg"")}
length:data(11) {image: uri(""score_11.jpg"")}
length:data(12) {image: uri(""score_12.jpg"")}
length:data(13) {image: uri(""score_13.jpg"")}
length:data(14) {image: uri(""score_14.jpg"")}
length:data(15) {image: uri(""score_15.jpg"")}
length:data(16) {image: uri(""score_16.jpg"")}
length:data(17) {image: uri(""score_17.jpg"")}
length:data(18) {image: uri(""score_18.jpg"")}
length:data(19) {image: uri(""score_19.jpg"")}
length:data(20) {image: uri(""score_20.jpg"")}
length:data(21) {image: uri(""score_21.jpg"")}
length:data(22) {image: uri(""score_22.jpg"")}
length:data(23) {image: uri(""score_23.jpg"")}
length:data(24) {image: uri(""score_24.jpg"")}
length:data(25) {image: uri(""score_25.jpg"")}

crawford:data(True) {image: uri(""crawford.jpg"")}
crawford:data(False) {image: uri(""score_template.jpg"")}
crawford {x: 291; y: 93; width: 25; height: 46}


score {width: 50; height: 93}
score[player=you] {x: 291; y:139}
score[player=him] {x: 291; y: 0 }
score:data(0) {image: uri(""score_0.jpg"")}
score:data(1) {image: uri(""score_1.jpg"")}
score:data(2) {image: uri(""score_2.jpg"")}
score:data(3) {image: uri(""score_3.jpg"")}
score:data(4) {image: uri(""score_4.jpg"")}
score:data(5) {image: uri(""score_5.jpg"")}
score:data(6) {image: uri(""score_6.jpg"")}
score:data(7) {image: uri(""score_7.jpg"")}
score:data(8) {image: uri(""score_8.jpg"")}
score:data(9) {image: uri(""score_9.jpg"")}
score:data(10) {image: uri(""score_10.jpg"")}
score:data(11) {image: uri(""score_11.jpg"")}
score:data(12) {image: uri(""score_12.jpg"")}
score:data(13) {image: uri(""score_13.jpg"")}
score:data(14) {image: uri(""score_14.jpg"")}
score:data(15) {image: uri(""score_15.jpg"")}
score:data(16) {image: uri(""score_16.jpg"")}
score:data(17) {image: uri(""score_17.jpg"")}
score:data(18) {image: uri(""score_18.jpg"")}
score:data(19) {image: uri(""score_19.jpg"")}
score:data(20) {image: uri(""score_20.jpg"")}
score:data(21) {image: uri(""score_21.jpg"")}
score:data(22) {image: uri(""score_22.jpg"")}
score:data(23) {image: uri(""score_23.jpg"")}
score:data(24) {image: uri(""score_24.jpg"")}
score:data(25) {image: uri(""score_25.jpg"")}


action{width: 25; height: 26; x:0; y:103 ; background: white}
action[player=you] {image: uri(""action_white.jpg"") }
action[player=him] {image: uri(""action_green.jpg"") }
player {width:0; height: 0}
player[player=you]{x:0; y:0}
player[player=him]{x:0; y:0}


position {x: 0; y: 0; width: 291; height: 232; image: uri(""position.jpg"")}
point        {width: 18; height:88}
point:data(1) { x: 248 ; y: 139 }
point:data(2) { x: 230 ; y: 139 }
point:data(3) { x: 212 ; y: 139 }
point:data(4) { x: 194 ; y: 139 }
point:data(5) { x: 176 ; y: 139 }
point:data(6) { x: 158 ; y: 139 }
point:data(7) { x: 115 ; y: 139 }
point:data(8) { x:  97 ; y: 139 }
point:data(9) { x:  79 ; y: 139 }
point:data(10) {x:  61 ; y: 139 }
point:data(11) {x:  43 ; y: 139 }
point:data(12) {x:  25 ; y: 139 }
point:data(13) {x:  25 ; y:   5 ; flip:  True  }
point:data(14) {x:  43 ; y:   5 ; flip:  True  }
point:data(15) {x:  61 ; y:   5 ; flip:  True  }
point:data(16) {x:  79 ; y:   5 ; flip:  True  }
point:data(17) {x:  97 ; y:   5 ; flip:  True  }
point:data(18) {x: 115 ; y:   5 ; flip:  True  }
point:data(19) {x: 158 ; y:   5 ; flip:  True  }
point:data(20) {x: 176 ; y:   5 ; flip:  True  }
point:data(21) {x: 194 ; y:   5 ; flip:  True  }
point:data(22) {x: 212 ; y:   5 ; flip:  True  }
point:data(23) {x: 230 ; y:   5 ; flip:  True  }
point:data(24) {x: 248 ; y:   5 ; flip:  True  }
point[parity=odd]  { image: uri(""odd-none.jpg"") } 
point[parity=even] { image: uri(""even-none.jpg"") } 

bar {width: 25; height: 111}
bar[player=him] { image: uri(""bar-none.jpg"")} 
bar[player=you] { image: uri(""bar-none.jpg"")} 
bar[player=him] {x:133; y: 5}
bar[player=you] {x:133; y:116}

cubeholder {width: 25 ;height: 30; image:uri(""cubeholder.jpg""); x: 266; y: 101}

home {width: 25 ;height: 101}
home[player=you] {x: 266; y: 131; image:uri(""your-home.jpg"")}
home[player=him] {x: 266; y: 0; image:uri(""his-home.jpg"")}


field {width: 108; height: 46; image: uri(""field.jpg"")} 
field[player=you] {x: 158;y: 93}
field[player=him] {x: 25 ;y: 93}

cubeholder cube {x: 266 ; y: 105}


field[player=you] die[id=left] {x: 176; y: 95}
field[player=you] die[id=right] {x: 204; y: 95}
field[player=him] die[id=left] {x: 43; y:95}
field[player=him] die[id=right] {x: 71; y:95}
die:data(1) {image: uri(""die_1.jpg"")}
die:data(2) {image: uri(""die_2.jpg"")}
die:data(3) {image: uri(""die_3.jpg"")}
die:data(4) {image: uri(""die_4.jpg"")}
die:data(5) {image: uri(""die_5.jpg"")}
die:data(6) {image: uri(""die_6.jpg"")}
die {width: 16; height: 16}

home[player=you] cube {x: 266; y: 197} 
home[player=him] cube {x: 266; y: 5}
field[player=you] cube {x: 50; y: 100}
field[player=him] cube {x: 180; y: 100}
cube {width: 25; height: 25}
cube:data(0) {image: uri(""cube_0.jpg"")}
cube:data(1) {image: uri(""cube_1.jpg"")}
cube:data(2) {image: uri(""cube_2.jpg"")}
cube:data(3) {image: uri(""cube_3.jpg"")}
cube:data(4) {image: uri(""cube_4.jpg"")}
cube:data(5) {image: uri(""cube_5.jpg"")}

field[player=you] resign {x: 157;y: 93; x_offset: 20; y_offset: 0}
field[player=him] resign {x: 25 ;y: 93; x_offset: 20; y_offset: 0}
resign {width: 25; height: 25; image: uri(""chip.png""})

chequer {max_count:1 ; hide_count: True}

point[parity=odd] chequer[player=you]:data(1)   {image: uri(""odd-white-1.jpg"")} 
point[parity=odd] chequer[player=you]:data(2)   {image: uri(""odd-white-2.jpg"")} 
point[parity=odd] chequer[player=you]:data(3)   {image: uri(""odd-white-3.jpg"")} 
point[parity=odd] chequer[player=you]:data(4)   {image: uri(""odd-white-4.jpg"")} 
point[parity=odd] chequer[player=you]:data(5)   {image: uri(""odd-white-5.jpg"")} 
point[parity=odd] chequer[player=you]:data(6)   {image: uri(""odd-white-6.jpg"")} 
point[parity=odd] chequer[player=you]:data(7)   {image: uri(""odd-white-7.jpg"")} 
point[parity=odd] chequer[player=you]:data(8)   {image: uri(""odd-white-8.jpg"")} 
point[parity=odd] chequer[player=you]:data(9)   {image: uri(""odd-white-9.jpg"")} 
point[parity=odd] chequer[player=you]:data(10)  {image: uri(""odd-white-10.jpg"")} 
point[parity=odd] chequer[player=you]:data(11)  {image: uri(""odd-white-11.jpg"")} 
point[parity=odd] chequer[player=you]:data(12)  {image: uri(""odd-white-12.jpg"")} 
point[parity=odd] chequer[player=you]:data(13)  {image: uri(""odd-white-13.jpg"")} 
point[parity=odd] chequer[player=you]:data(14)  {image: uri(""odd-white-14.jpg"")} 
point[parity=odd] chequer[player=you]:data(15)  {image: uri(""odd-white-15.jpg"")} 

point[parity=even] chequer[player=you]:data(1)  {image: uri(""even-white-1.jpg"")} 
point[parity=even] chequer[player=you]:data(2)  {image: uri(""even-white-2.jpg"")} 
point[parity=even] chequer[player=you]:data(3)  {image: uri(""even-white-3.jpg"")} 
point[parity=even] chequer[player=you]:data(4)  {image: uri(""even-white-4.jpg"")} 
point[parity=even] chequer[player=you]:data(5)  {image: uri(""even-white-5.jpg"")} 
point[parity=even] chequer[player=you]:data(6)  {image: uri(""even-white-6.jpg"")} 
point[parity=even] chequer[player=you]:data(7)  {image: uri(""even-white-7.jpg"")} 
point[parity=even] chequer[player=you]:data(8)  {image: uri(""even-white-8.jpg"")} 
point[parity=even] chequer[player=you]:data(9)  {image: uri(""even-white-9.jpg"")} 
point[parity=even] chequer[player=you]:data(10) {image: uri(""even-white-10.jpg"")} 
point[parity=even] chequer[player=you]:data(11) {image: uri(""even-white-11.jpg"")} 
point[parity=even] chequer[player=you]:data(12) {image: uri(""even-white-12.jpg"")} 
point[parity=even] chequer[player=you]:data(13) {image: uri(""even-white-13.jpg"")} 
point[parity=even] chequer[player=you]:data(14) {image: uri(""even-white-14.jpg"")} 
point[parity=even] chequer[player=you]:data(15) {image: uri(""even-white-15.jpg"")} 

point[parity=odd] chequer[player=him]:data(1)   {image: uri(""odd-green-1.jpg"")} 
point[parity=odd] chequer[player=him]:data(2)   {image: uri(""odd-green-2.jpg"")} 
point[parity=odd] chequer[player=him]:data(3)   {image: uri(""odd-green-3.jpg"")} 
point[parity=odd] chequer[player=him]:data(4)   {image: uri(""odd-green-4.jpg"")} 
point[parity=odd] chequer[player=him]:data(5)   {image: uri(""odd-green-5.jpg"")} 
point[parity=odd] chequer[player=him]:data(6)   {image: uri(""odd-green-6.jpg"")} 
point[parity=odd] chequer[player=him]:data(7)   {image: uri(""odd-green-7.jpg"")} 
point[parity=odd] chequer[player=him]:data(8)   {image: uri(""odd-green-8.jpg"")} 
point[parity=odd] chequer[player=him]:data(9)   {image: uri(""odd-green-9.jpg"")} 
point[parity=odd] chequer[player=him]:data(10)  {image: uri(""odd-green-10.jpg"")} 
point[parity=odd] chequer[player=him]:data(11)  {image: uri(""odd-green-11.jpg"")} 
point[parity=odd] chequer[player=him]:data(12)  {image: uri(""odd-green-12.jpg"")} 
point[parity=odd] chequer[player=him]:data(13)  {image: uri(""odd-green-13.jpg"")} 
point[parity=odd] chequer[player=him]:data(14)  {image: uri(""odd-green-14.jpg"")} 
point[parity=odd] chequer[player=him]:data(15)  {image: uri(""odd-green-15.jpg"")} 

point[parity=even] chequer[player=him]:data(1)  {image: uri(""even-green-1.jpg"")} 
point[parity=even] chequer[player=him]:data(2)  {image: uri(""even-green-2.jpg"")} 
point[parity=even] chequer[player=him]:data(3)  {image: uri(""even-green-3.jpg"")} 
point[parity=even] chequer[player=him]:data(4)  {image: uri(""even-green-4.jpg"")} 
point[parity=even] chequer[player=him]:data(5)  {image: uri(""even-green-5.jpg"")} 
point[parity=even] chequer[player=him]:data(6)  {image: uri(""even-green-6.jpg"")} 
point[parity=even] chequer[player=him]:data(7)  {image: uri(""even-green-7.jpg"")} 
point[parity=even] chequer[player=him]:data(8)  {image: uri(""even-green-8.jpg"")} 
point[parity=even] chequer[player=him]:data(9)  {image: uri(""even-green-9.jpg"")} 
point[parity=even] chequer[player=him]:data(10) {image: uri(""even-green-10.jpg"")} 
point[parity=even] chequer[player=him]:data(11) {image: uri(""even-green-11.jpg"")} 
point[parity=even] chequer[player=him]:data(12) {image: uri(""even-green-12.jpg"")} 
point[parity=even] chequer[player=him]:data(13) {image: uri(""even-green-13.jpg"")} 
point[parity=even] chequer[player=him]:data(14) {image: uri(""even-green-14.jpg"")} 
point[parity=even] chequer[player=him]:data(15) {image: uri(""even-green-15.jpg"")} 




bar[player=him] chequer[player=him]:data(1)   {image: uri(""bar-green-1.jpg"")} 
bar[player=him] chequer[player=him]:data(2)   {image: uri(""bar-green-2.jpg"")} 
bar[player=him] chequer[player=him]:data(3)   {image: uri(""bar-green-3.jpg"")} 
bar[player=him] chequer[player=him]:data(4)   {image: uri(""bar-green-4.jpg"")} 
bar[player=him] chequer[player=him]:data(5)   {image: uri(""bar-green-5.jpg"")} 
bar[player=him] chequer[player=him]:data(6)   {image: uri(""bar-green-6.jpg"")} 
bar[player=him] chequer[player=him]:data(7)   {image: uri(""bar-green-7.jpg"")} 
bar[player=him] chequer[player=him]:data(8)   {image: uri(""bar-green-8.jpg"")} 
bar[player=him] chequer[player=him]:data(9)   {image: uri(""bar-green-9.jpg"")} 
bar[player=him] chequer[player=him]:data(10)  {image: uri(""bar-green-10.jpg"")} 
bar[player=him] chequer[player=him]:data(11)  {image: uri(""bar-green-11.jpg"")} 
bar[player=him] chequer[player=him]:data(12)  {image: uri(""bar-green-12.jpg"")} 
bar[player=him] chequer[player=him]:data(13)  {image: uri(""bar-green-13.jpg"")} 
bar[player=him] chequer[player=him]:data(14)  {image: uri(""bar-green-14.jpg"")} 
bar[player=him] chequer[player=him]:data(15)  {image: uri(""bar-green-15.jpg"")} 


bar[player=you] chequer[player=you]:data(1)   {image: uri(""bar-white-1.jpg"")} 
bar[player=you] chequer[player=you]:data(2)   {image: uri(""bar-white-2.jpg"")} 
bar[player=you] chequer[player=you]:data(3)   {image: uri(""bar-white-3.jpg"")} 
bar[player=you] chequer[player=you]:data(4)   {image: uri(""bar-white-4.jpg"")} 
bar[player=you] chequer[player=you]:data(5)   {image: uri(""bar-white-5.jpg"")} 
bar[player=you] chequer[player=you]:data(6)   {image: uri(""bar-white-6.jpg"")} 
bar[player=you] chequer[player=you]:data(7)   {image: uri(""bar-white-7.jpg"")} 
bar[player=you] chequer[player=you]:data(8)   {image: uri(""bar-white-8.jpg"")} 
bar[player=you] chequer[player=you]:data(9)   {image: uri(""bar-white-9.jpg"")} 
bar[player=you] chequer[player=you]:data(10)  {image: uri(""bar-white-10.jpg"")} 
bar[player=you] chequer[player=you]:data(11)  {image: uri(""bar-white-11.jpg"")} 
bar[player=you] chequer[player=you]:data(12)  {image: uri(""bar-white-12.jpg"")} 
bar[player=you] chequer[player=you]:data(13)  {image: uri(""bar-white-13.jpg"")} 
bar[player=you] chequer[player=you]:data(14)  {image: uri(""bar-white-14.jpg"")} 
bar[player=you] chequer[player=you]:data(15)  {image: uri(""bar-white-15.jpg"")} 


".

Definition theme_files : list (string * string) :=
  [("bglib/image/resource/deutsche/default.css", deutsche_css);
   ("bglib/image/resource/flower/default.css", flower_css);
   ("bglib/image/resource/kotobuki/default.css", kotobuki_css);
   ("bglib/image/resource/matrix/default.css", matrix_css);
   ("bglib/image/resource/minimal/default.css", minimal_css);
   ("bglib/image/resource/nature/default.css", nature_css);
   ("bglib/image/resource/neon/default.css", neon_css);
   ("bglib/image/resource/safari/default.css", safari_css)].
