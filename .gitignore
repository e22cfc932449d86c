*.vo
*.vos
*.vok
*.glob
*.aux
.*.cache
.*.aux
rocq/Makefile*
rocq/.Makefile.d
