*.vo
*.vok
*.vos
*.glob
*.aux
*.cache
.Makefile.d
rocq/Makefile
rocq/Makefile.conf
rocq/.Makefile.d
