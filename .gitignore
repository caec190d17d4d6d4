*.vo
*.vok
*.vos
*.glob
*.aux
.*.aux
*.cache
.Makefile.d
Makefile
Makefile.conf
rocq/Makefile
rocq/Makefile.conf
rocq/.Makefile.d
