(** * HtmlTemplate: thermal_renderer/resources/templates/thermal.html, transcribed by a script
    (tools/genhtml.py). *)
From Verif Require Import Base ThermalFile.
Local Open Scope list_scope.

(** the lines of the file *)
Definition template_lines : list string :=
  ["<!DOCTYPE html>"%string;
   "<html lang=""en"">"%string;
   "<head>"%string;
   "    <meta charset=""UTF-8"">"%string;
   "    <title>Thermal</title>"%string;
   ""%string;
   "    <style>"%string;
   "        body {"%string;
   "            margin: 0;"%string;
   "            background: #f7f5f0;"%string;
   "        }"%string;
   ""%string;
   "        section {"%string;
   "            background: {{color-0}};"%string;
   "            font-family: monospace;"%string;
   "            font-size: 21.8px;"%string;
   "            line-height: 24px;"%string;
   "            margin: 20px auto 20px auto;"%string;
   "            text-align: left;"%string;
   "            box-sizing: border-box;"%string;
   "            transform: scale(0.7);"%string;
   "            transform-origin: top;"%string;
   "        }"%string;
   ""%string;
   "        @media print {"%string;
   "            html, body { background: white; }"%string;
   "            section { margin: 0 auto; }"%string;
   "        }"%string;
   ""%string;
   "        p {"%string;
   "            margin:0;"%string;
   "            padding: 0;"%string;
   "            position: relative;"%string;
   "        }"%string;
   ""%string;
   "        p span, p .img, p .gfx {"%string;
   "           position: absolute;"%string;
   "        }"%string;
   ""%string;
   "        span {"%string;
   "            display: block;"%string;
   "            vertical-align: text-bottom;"%string;
   "            white-space: pre;"%string;
   "            color: {{color-1}};"%string;
   "            background-color: transparent;"%string;
   "        }"%string;
   ""%string;
   "        .fg_0 { color: {{color-0}}; }"%string;
   "        .fg_1 { color: {{color-1}}; }"%string;
   "        .fg_2 { color: {{color-2}}; }"%string;
   "        .fg_3 { color: {{color-3}}; }"%string;
   ""%string;
   "        .bg_0 { background-color: {{color-0}}; }"%string;
   "        .bg_1 { background-color: {{color-1}}; }"%string;
   "        .bg_2 { background-color: {{color-2}}; }"%string;
   "        .bg_3 { background-color: {{color-3}}; }"%string;
   ""%string;
   "        .fb{ font-size: .8em; line-height: .8; }"%string;
   "        .fc{ font-size: .65em; line-height: .65; }"%string;
   ""%string;
   "        .b{ font-weight: bold; }"%string;
   "        .i{ font-style: italic; }"%string;
   "        .u{ text-decoration: underline; }"%string;
   "        .s{ text-decoration: line-through; }"%string;
   "        .s, .sd{ text-decoration: line-through; }"%string;
   ""%string;
   "        /* Conflicts with scaling, need to figure out a solution */"%string;
   "        .upd { transform: scale(1, -1); }"%string;
   ""%string;
   "        .str { transform-origin: top left; }"%string;
   ""%string;
   "        .w2{ transform: scaleX(2); }"%string;
   "        .h2{ transform: scaleY(2); }"%string;
   "        .w2.h2{ transform: scale(2); }"%string;
   ""%string;
   "        .w3{ transform: scaleX(3); }"%string;
   "        .h3{ transform: scaleY(3); }"%string;
   "        .w3.h3{ transform: scale(3); }"%string;
   ""%string;
   "        .w4{ transform: scaleX(4); }"%string;
   "        .h4{ transform: scaleY(4); }"%string;
   "        .w4.h4{ transform: scale(4); }"%string;
   ""%string;
   "        .w5{ transform: scaleX(5); }"%string;
   "        .h5{ transform: scaleY(5); }"%string;
   "        .w5.h5{ transform: scale(5); }"%string;
   ""%string;
   "        .w6{ transform: scaleX(6); }"%string;
   "        .h6{ transform: scaleY(6); }"%string;
   "        .w6.h6{ transform: scale(6); }"%string;
   ""%string;
   "        .w7{ transform: scaleX(7); }"%string;
   "        .h7{ transform: scaleY(7); }"%string;
   "        .w7.h7{ transform: scale(7); }"%string;
   ""%string;
   "        .w8{ transform: scaleX(8); }"%string;
   "        .h8{ transform: scaleY(8); }"%string;
   "        .w8.h8{ transform: scale(8); }"%string;
   ""%string;
   "        img { display: block; }"%string;
   "    </style>"%string;
   "</head>"%string;
   "<body>"%string;
   "    <main><section style=""{{receipt-style}}""><article>{{content}}</article></section></main>"%string;
   "</body>"%string;
   "</html>"%string].
(** html_renderer/mod.rs:26: include_str! *)
Definition TEMPLATE : list Z :=
  match template_lines with
  | [] => []
  | l :: r => str l ++ flat_map (fun l => 10 :: str l) r
  end.
